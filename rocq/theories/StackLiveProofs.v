(** Proofs about when a stack of layers succeeds. *)

From Coq Require Import String List ZArith Bool Lia.
From Coq Require Import ZifyBool.
From Verif Require Import Py Meta MetaSpec Pad Conv ConvSpec ConvProofs ConvRunProofs ConvStreamProofs ConvMoreProofs Stack StackSpec StackProofs.
Import ListNotations.
Open Scope nat_scope.

Section StackLive.
Context {V : Type}.
Implicit Types (L : layer V) (Ls : list (layer V)) (c : conv_cfg V).

Lemma overlapping_good L : overlapping L -> good_layer L.
Proof. destruct L; simpl; [|auto]. intros [H1 H2]. split; [auto|lia]. Qed.

(* ---------- the schedule after a layer ---------- *)

Lemma spec_run_schedule c : forall (sched : list (list (chunk V))) (past : string -> option (list V)), Forall good_batch sched ->
  spec_run c past sched
  = map (fun n => map (fun r => set_data r (due c (so_far (pending c (past (cid r)) (stream_of (cid r) (firstn n sched)))) r)) (nth n sched []))
        (seq 0 (length sched)).
Proof.
  induction sched as [|rs sched IH]; intros past Hg; [reflexivity|]. inversion Hg as [|? ? (_ & Hnd & _) Hg2]; subst.
  cbn [spec_run length seq map nth firstn]. f_equal. rewrite IH, <- seq_shift, map_map by auto.
  apply map_ext. intros n. cbn [nth firstn]. apply map_ext. intros r. now rewrite pending_step.
Qed.

Lemma layer_schedule_conv c sched : Forall good_batch sched -> spec_run c (fun _ => None) sched = layer_schedule (LConv c) sched.
Proof. intros H. now rewrite spec_run_schedule. Qed.

Lemma map_nth_seq {A B} (f : A -> B) d : forall l, map (fun n => f (nth n l d)) (seq 0 (length l)) = map f l.
Proof. induction l as [|a l IH]; [reflexivity|]. cbn [length seq map nth]. f_equal. rewrite <- seq_shift, map_map. exact IH. Qed.

Lemma layer_schedule_map g (sched : list (list (chunk V))) : layer_schedule (LMap g) sched = map (map (fun r => set_data r (map g (cdat r)))) sched.
Proof. unfold layer_schedule. exact (map_nth_seq (map (fun r => set_data r (map g (cdat r)))) [] sched). Qed.

Lemma layer_schedule_stream L i sched : Forall good_batch sched ->
  stream_of i (layer_schedule L sched) = layer_chunks L (stream_of i sched).
Proof.
  intros H. destruct L as [c|g].
  - rewrite <- layer_schedule_conv by auto. exact (spec_run_stream c i sched (fun _ => None) H).
  - rewrite layer_schedule_map. now apply stream_of_map.
Qed.

Lemma layer_schedule_follows L sched : Forall good_batch sched -> Forall2 (Forall2 follows) sched (layer_schedule L sched).
Proof.
  intros H. destruct L as [c|g].
  - rewrite <- layer_schedule_conv by auto. apply spec_run_follows.
  - rewrite layer_schedule_map. clear H. induction sched as [|t s IH]; simpl; constructor; auto. induction t; simpl; constructor; auto. repeat split.
Qed.

Lemma spec_run_nth c : forall (sched : list (list (chunk V))) n, nth_error (layer_schedule (LConv c) sched) n
  = option_map (map (fun r => set_data r (due c (so_far (pending c None (stream_of (cid r) (firstn n sched)))) r))) (nth_error sched n).
Proof.
  intros sched n. unfold layer_schedule. rewrite nth_error_map. destruct (nth_error sched n) as [rs|] eqn:E.
  - assert (n < length sched) by (apply nth_error_Some; congruence). rewrite (nth_error_nth' _ 0) by now rewrite seq_length.
    rewrite seq_nth by auto. cbn [option_map Nat.add]. now rewrite (nth_error_nth sched n [] E).
  - apply nth_error_None in E. assert (G : nth_error (seq 0 (length sched)) n = None) by (apply nth_error_None; now rewrite seq_length). now rewrite G.
Qed.

(** Some output in every batch is what C29 asks for. *)
Lemma alive_spans c (sched : list (tens V)) : valid_cfg c ->
  (Forall (fun rs => exists r, In r rs /\ cdat r <> []) (layer_schedule (LConv c) (map trows sched)) <->
   forall k t, nth_error sched k = Some t -> exists r, In r (trows t) /\
     spans c (so_far (pending c None (stream_of (cid r) (map trows (firstn k sched))))) r).
Proof.
  intros Hv. split.
  - intros H k t Hk. rewrite Forall_forall in H.
    specialize (H (map (fun r => set_data r (due c (so_far (pending c None (stream_of (cid r) (firstn k (map trows sched))))) r)) (trows t))).
    destruct H as (q & Hq & Hd).
    { eapply nth_error_In with (n := k). rewrite spec_run_nth, nth_error_map, Hk. reflexivity. }
    apply in_map_iff in Hq as (r & <- & Hr). exists r. split; auto. rewrite <- firstn_map'. apply due_nonempty; auto.
  - intros H. apply Forall_forall. intros rs Hrs. apply In_nth_error in Hrs as (k & Hk). rewrite spec_run_nth, nth_error_map in Hk.
    destruct (nth_error sched k) as [t|] eqn:E; [|discriminate]. cbn [option_map] in Hk. inversion Hk; subst; clear Hk.
    destruct (H k t E) as (r & Hr & Hsp). eexists. split; [apply in_map; exact Hr|]. cbn [set_data cdat]. rewrite firstn_map'. apply due_nonempty; auto.
Qed.

(* ---------- one layer ---------- *)

Lemma layer_mid L z z' Ls sched st1 mid : good_layer L -> zero_preserving z (L :: Ls) z' ->
  good_schedule (map trows sched) -> Forall tight sched ->
  layer_run L no_buffers (map (tensor_of z) sched) = Ok (mid, st1) ->
  exists z1 outs, zero_preserving z1 Ls z' /\ mid = map (tensor_of z1) outs /\ Forall tight outs /\
    map trows outs = layer_schedule L (map trows sched).
Proof.
  intros HL Hz Hg Ht H. pose proof Hg as [Hg1 _]. destruct L as [c|g].
  - destruct HL as [Hv Hs]. destruct Hz as [<- Hz]. rewrite layer_run_conv in H.
    assert (Hf : Forall (fits c) sched).
    { clear - Hg1 Ht. induction sched as [|t s IH]; constructor; inversion Ht; subst; cbn [map] in Hg1; inversion Hg1 as [|? ? (Hne & _) Hg2]; subst; auto.
      now apply tight_fits. }
    destruct (run_refines c Hv Hs sched no_buffers (fun _ => None) mid st1 Hg1 Hf (good_course c _ Hg) (matches_none c) H) as (outs & -> & HR & E & _).
    exists (zout c), outs. split; auto. split; auto. split; [|now rewrite E, layer_schedule_conv].
    clear - HR Ht. induction HR as [|t u s o (_ & _ & H) HR IH]; constructor; inversion Ht; subst; auto.
  - rewrite layer_run_map in H. inversion H; subst. cbn [zero_preserving] in Hz.
    exists (g z), (map (fun t => mkTens (tw t) (th t) (map (fun r => set_data r (map g (cdat r))) (trows t))) sched).
    split; auto. rewrite layer_schedule_map, !map_map. cbn [trows]. split; [|split; [|reflexivity]].
    + apply map_ext. intros t. apply map_tensor.
    + apply Forall_forall. intros u Hu. apply in_map_iff in Hu as (t & <- & Hin). rewrite Forall_forall in Ht. specialize (Ht t Hin).
      unfold tight in *. cbn [tw trows]. rewrite Ht. unfold longest. rewrite map_map. f_equal. apply map_ext. intros r. cbn. now rewrite map_length.
Qed.

Lemma conv_total c sched : overlapping (LConv c) -> good_schedule (map trows sched) -> Forall tight sched ->
  ((exists ys st', conv_run c no_buffers (map (tensor_of (zin c)) sched) = Ok (ys, st')) <->
   Forall (fun rs => exists r, In r rs /\ cdat r <> []) (layer_schedule (LConv c) (map trows sched))).
Proof.
  intros [Hv Hs] Hg Ht. pose proof Hg as [Hg1 _]. rewrite alive_spans by auto. split.
  - intros (ys & st' & E). eapply run_succeeds_only; eauto. lia.
  - intros H. destruct Hs as [Hs|[Hs Hk]].
    + apply run_succeeds; auto. clear - Hg1 Ht. induction sched as [|t s IH]; constructor; inversion Ht; subst; cbn [map] in Hg1; inversion Hg1 as [|? ? (Hne & _) Hg2]; subst; auto.
      now apply tight_fits.
    + apply (run_total c Hv ltac:(lia) sched no_buffers (fun _ => None)); auto.
      * clear - Hg1 Ht. induction sched as [|t s IH]; constructor; inversion Ht; subst; cbn [map] in Hg1; inversion Hg1 as [|? ? (Hne & _) Hg2]; subst; auto.
        now apply tight_fits.
      * now apply good_course.
      * apply matches_none.
      * intros k t Hkt. cbv zeta. split; [|apply starved_spans; auto]. intros (J & _). lia.
Qed.

Lemma stack_run_layers L Ls : forall xs st sts mid st1 ys sts1, layer_run L st xs = Ok (mid, st1) -> stack_run Ls sts mid = Ok (ys, sts1) ->
  stack_run (L :: Ls) (st :: sts) xs = Ok (ys, st1 :: sts1).
Proof.
  induction xs as [|x xs IH]; intros st sts mid st1 ys sts1 H1 H2.
  - cbn in H1. inversion H1; subst. cbn in H2. inversion H2; subst. reflexivity.
  - cbn [layer_run] in H1. apply bind_ok in H1 as ((y & s1) & H1 & H). apply bind_ok in H as ((m2 & s2) & H & E). inversion E; subst.
    cbn [stack_run] in H2. apply bind_ok in H2 as ((y2 & t1) & H2 & H3). apply bind_ok in H3 as ((y3 & t2) & H3 & E3). inversion E3; subst.
    cbn [stack_run stack_call]. rewrite H1. cbn [bind]. rewrite H2. cbn [bind]. rewrite (IH _ _ _ _ _ _ H H3). reflexivity.
Qed.

Lemma good_layer_schedule L Ls sched : good_schedule sched -> (forall i, survives (L :: Ls) (stream_of i sched)) -> Ls <> [] ->
  good_schedule (layer_schedule L sched).
Proof.
  intros Hg Hsv Hne. pose proof Hg as [Hg1 _]. eapply good_follows; eauto; [now apply layer_schedule_follows|].
  intros i. rewrite layer_schedule_stream by auto. specialize (Hsv i). destruct Ls; [congruence|]. cbn [survives] in Hsv. tauto.
Qed.

Theorem stack_succeeds z' : forall Ls z sched, Forall overlapping Ls -> zero_preserving z Ls z' ->
  good_schedule (map trows sched) -> Forall tight sched -> (forall i, survives Ls (stream_of i (map trows sched))) ->
  ((exists ys sts', stack_run Ls (fresh Ls) (map (tensor_of z) sched) = Ok (ys, sts')) <-> alive Ls (map trows sched)).
Proof.
  induction Ls as [|L Ls IH]; intros z sched HL Hz Hg Ht Hsv.
  - split; [cbn; auto|intros _]. cbn [fresh map]. generalize (map (tensor_of z) sched). intros xs. induction xs as [|x xs (ys & s & E)]; [cbn; eauto|].
    assert (G : forall ss : list (buffers V), exists ys s, stack_run [] ss xs = Ok (ys, s)).
    { clear. induction xs as [|x xs IH]; intros ss; cbn; [eauto|]. destruct (IH []) as (ys & s & E). rewrite E. cbn. eauto. }
    cbn. destruct (G []) as (ys2 & s2 & E2). rewrite E2. cbn. eauto.
  - inversion HL as [|? ? HL1 HL2]; subst. pose proof (overlapping_good L HL1) as HL1'. pose proof Hg as [Hg1 _].
    assert (Hnext : forall z1 outs, zero_preserving z1 Ls z' -> Forall tight outs -> map trows outs = layer_schedule L (map trows sched) ->
      (exists ys sts', stack_run Ls (fresh Ls) (map (tensor_of z1) outs) = Ok (ys, sts')) <-> alive Ls (layer_schedule L (map trows sched))).
    { intros z1 outs Hz1 Ht1 E. destruct Ls as [|L2 Ls].
      - split; [cbn; auto|intros _]. cbn [fresh map].
        clear. generalize (map (tensor_of z1) outs). intros xs. generalize (@nil (buffers V)). induction xs as [|x xs IH]; intros ss; cbn; [eauto|].
        destruct (IH []) as (ys & s & E). rewrite E. cbn. eauto.
      - rewrite <- E. apply IH; auto.
        + rewrite E. eapply good_layer_schedule; eauto. discriminate.
        + intros i. rewrite E, layer_schedule_stream by auto. specialize (Hsv i). cbn [survives] in *. tauto. }
    cbn [fresh map alive]. split.
    + intros (ys & sts' & E). apply stack_run_cons in E as (mid & st1 & sts1 & E1 & E2 & ->).
      destruct (layer_mid L z z' Ls sched st1 mid HL1' Hz Hg Ht E1) as (z1 & outs & Hz1 & -> & Ht1 & Eo).
      split; [|apply (Hnext z1 outs Hz1 Ht1 Eo); eauto].
      destruct L as [c|g]; auto. apply conv_total; auto. destruct Hz as [<- _]. rewrite layer_run_conv in E1. eauto.
    + intros [Ha Hb].
      assert (E1 : exists mid st1, layer_run L no_buffers (map (tensor_of z) sched) = Ok (mid, st1)).
      { destruct L as [c|g]; [|rewrite layer_run_map; eauto]. destruct Hz as [<- _]. rewrite layer_run_conv. apply conv_total; auto. }
      destruct E1 as (mid & st1 & E1).
      destruct (layer_mid L z z' Ls sched st1 mid HL1' Hz Hg Ht E1) as (z1 & outs & Hz1 & -> & Ht1 & Eo).
      destruct (proj2 (Hnext z1 outs Hz1 Ht1 Eo) Hb) as (ys & sts1 & E2). exists ys, (st1 :: sts1). eapply stack_run_layers; eauto.
Qed.

(* ---------- long chunks ---------- *)

(** Columns that arrive together give at least the outputs they would give alone. *)
Lemma nwin_super c a n : valid_cfg c -> strd c <= kspan c -> nwin c a + nwin c n <= nwin c (a + n).
Proof.
  intros Hv Hs. destruct (Nat.le_gt_cases (nwin c a + nwin c n) (nwin c (a + n))) as [|H]; auto. exfalso.
  assert (G : ~ (nwin c a + nwin c n - 1 < nwin c (a + n))) by lia. rewrite nwin_lt in G by auto.
  destruct (nwin c n) as [|m] eqn:En.
  - rewrite Nat.add_0_r in *. pose proof (nwin_le c a (a + n) Hv ltac:(lia)). lia.
  - destruct (nwin c a) as [|k] eqn:Ea.
    + assert (E : m < nwin c n) by lia. rewrite nwin_lt in E by auto. replace (0 + S m - 1) with m in G by lia. lia.
    + assert (E : m < nwin c n) by lia. rewrite nwin_lt in E by auto. assert (E2 : k < nwin c a) by lia. rewrite nwin_lt in E2 by auto.
      replace (S k + S m - 1) with (k + m + 1) in G by lia. nia.
Qed.

Lemma due_length c past (r : chunk V) : length (due c past r) = nwin c (length (received c past r)) - (if csos r then 0 else nwin c (length past)).
Proof. unfold due. rewrite skipn_length, conv_seq_length. reflexivity. Qed.

Lemma due_long c past (r : chunk V) n : valid_cfg c -> strd c <= kspan c -> n <= length (cdat r) -> nwin c n <= length (due c past r).
Proof.
  intros Hv Hs Hn. rewrite due_length. unfold received. rewrite !app_length. set (e := length (if ceos r then zeros c else [])).
  destruct (csos r).
  - pose proof (nwin_le c n (length (zeros c) + (length (cdat r) + e)) Hv ltac:(lia)). lia.
  - pose proof (nwin_super c (length past) n Hv Hs). pose proof (nwin_le c (length past + n) (length past + (length (cdat r) + e)) Hv ltac:(lia)). lia.
Qed.

Definition all_long (n : nat) (l : list (chunk V)) : Prop := Forall (fun r => n <= length (cdat r)) l.

Lemma ideal_long c n : valid_cfg c -> strd c <= kspan c -> forall l past, all_long n l -> all_long (nwin c n) (ideal c past l).
Proof.
  intros Hv Hs. induction l as [|r l IH]; intros past H; simpl; constructor; inversion H; subst; auto. 
  - cbn [set_data cdat]. now apply due_long.
  - now apply IH.
Qed.

Lemma nwin_width c n : nwin c n = if n <? kspan c then 0 else (n - kspan c) / strd c + 1.
Proof. reflexivity. Qed.

Lemma long_survives : forall Ls n w l, Forall good_layer Ls -> 1 <= n -> unpadded_width Ls n = Some w -> all_long n l -> survives Ls l.
Proof.
  induction Ls as [|L Ls IH]; intros n w l HL Hn Hw Hl; cbn [survives]; auto. inversion HL; subst. split.
  - unfold flagged_nonempty, all_long in *. eapply Forall_impl; [|exact Hl]. cbv beta. intros r Hr _ E. rewrite E in Hr. cbn in Hr. lia.
  - destruct L as [c|g]; cbn [unpadded_width layer_chunks] in *.
    + destruct H1 as [Hv Hs]. destruct (n <? kspan c) eqn:E; [discriminate|]. apply (IH ((n - kspan c) / strd c + 1) w); auto; [apply Nat.le_add_l|].
      replace ((n - kspan c) / strd c + 1) with (nwin c n) by (unfold nwin; now rewrite E). now apply ideal_long.
    + apply (IH n w); auto. unfold all_long in *. rewrite Forall_map. eapply Forall_impl; [|exact Hl]. cbv beta. intros r Hr. cbn [set_data cdat]. now rewrite map_length.
Qed.

Lemma long_chunk (n : nat) (sched : list (list (chunk V))) : (forall i, all_long n (stream_of i sched)) <-> Forall (Forall (fun r => n <= length (cdat r))) sched.
Proof.
  split.
  - intros H. apply Forall_forall. intros rs Hrs. apply Forall_forall. intros r Hr. specialize (H (cid r)). unfold all_long in H. rewrite Forall_forall in H.
    apply H. unfold stream_of. apply filter_In. split; [apply in_concat; eauto|apply String.eqb_refl].
  - intros H i. unfold all_long. apply Forall_forall. intros r Hr. apply filter_In in Hr as [Hr _]. apply in_concat in Hr as (rs & H1 & H2).
    rewrite Forall_forall in H. specialize (H rs H1). rewrite Forall_forall in H. auto.
Qed.

Lemma good_schedule_long L n sched : Forall good_batch sched -> good_layer L -> Forall (Forall (fun r => n <= length (cdat r))) sched ->
  match L with LConv c => Forall (Forall (fun r => nwin c n <= length (cdat r))) (layer_schedule L sched)
  | LMap _ => Forall (Forall (fun r => n <= length (cdat r))) (layer_schedule L sched) end.
Proof.
  intros Hg HL H. destruct L as [c|g]; apply long_chunk; intros i; rewrite layer_schedule_stream by auto; cbn [layer_chunks].
  - destruct HL. apply ideal_long; auto. now apply long_chunk.
  - pose proof (proj2 (long_chunk n sched) H i) as G. unfold all_long in *. rewrite Forall_map. eapply Forall_impl; [|exact G]. cbv beta. intros r Hr. cbn [set_data cdat]. now rewrite map_length.
Qed.

Lemma long_alive : forall Ls n w sched, Forall good_layer Ls -> 1 <= n -> unpadded_width Ls n = Some w -> good_schedule sched ->
  Forall (Forall (fun r => n <= length (cdat r))) sched -> alive Ls sched.
Proof.
  induction Ls as [|L Ls IH]; intros n w sched HL Hn Hw Hg Hl; cbn [alive]; auto. inversion HL; subst.
  pose proof Hg as [Hg1 _]. pose proof (good_schedule_long L n sched Hg1 H1 Hl) as Hl2. pose proof (layer_schedule_follows L sched Hg1) as HF.
  assert (Hne : Forall (fun rs => rs <> []) (layer_schedule L sched)).
  { clear - HF Hg1. induction HF as [|a b s t Hab HF IH]; constructor; inversion Hg1 as [|? ? (E & _) Hg2]; subst; auto. intros ->. inversion Hab. congruence. }
  assert (Hgood : forall m, 1 <= m -> Forall (Forall (fun r => m <= length (cdat r))) (layer_schedule L sched) -> good_schedule (layer_schedule L sched)).
  { intros m Hm HM. eapply good_follows; eauto. intros i. pose proof (proj2 (long_chunk m _) HM i) as G. unfold flagged_nonempty, all_long in *.
    eapply Forall_impl; [|exact G]. cbv beta. intros r Hr _ E. rewrite E in Hr. cbn in Hr. lia. }
  destruct L as [c|g]; cbn [unpadded_width] in Hw.
  - destruct (n <? kspan c) eqn:E; [discriminate|].
    assert (En : nwin c n = (n - kspan c) / strd c + 1) by (unfold nwin; now rewrite E). rewrite En in Hl2. split.
    + clear - Hl2 Hne. induction Hl2 as [|rs s H HF IH]; constructor; inversion Hne; subst; auto. destruct rs as [|r rs]; [congruence|].
      exists r. split; [left; auto|]. inversion H as [|? ? Hr]; subst. intros E. rewrite E in Hr. cbn [length] in Hr. pose proof (Nat.le_add_l 1 ((n - kspan c) / strd c)). eapply Nat.nle_succ_0, Nat.le_trans; eauto.
    + apply (IH ((n - kspan c) / strd c + 1) w); auto; [apply Nat.le_add_l|]. apply (Hgood ((n - kspan c) / strd c + 1)); auto. apply Nat.le_add_l.
  - split; auto. apply (IH n w); auto. apply (Hgood n); auto.
Qed.

Theorem stack_long Ls z z' sched n w : Forall overlapping Ls -> zero_preserving z Ls z' -> good_schedule (map trows sched) -> Forall tight sched ->
  1 <= n -> Forall (fun t => Forall (fun r => n <= length (cdat r)) (trows t)) sched -> unpadded_width Ls n = Some w ->
  (forall i, survives Ls (stream_of i (map trows sched))) /\ exists ys sts', stack_run Ls (fresh Ls) (map (tensor_of z) sched) = Ok (ys, sts').
Proof.
  intros HL Hz Hg Ht Hn Hl Hw.
  assert (HL' : Forall good_layer Ls) by (eapply Forall_impl; [apply overlapping_good|auto]).
  assert (Hl' : Forall (Forall (fun r => n <= length (cdat r))) (map trows sched)) by now rewrite Forall_map.
  assert (Hsv : forall i, survives Ls (stream_of i (map trows sched))).
  { intros i. eapply long_survives; eauto. now apply long_chunk. }
  split; auto. apply (stack_succeeds z'); auto. eapply long_alive; eauto.
Qed.

End StackLive.

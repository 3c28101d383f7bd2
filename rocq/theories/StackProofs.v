(** Proofs about stacks of layers. *)

From Coq Require Import String List ZArith Bool Lia.
From Coq Require Import ZifyBool.
From Verif Require Import Py Meta MetaSpec Pad Conv ConvSpec ConvProofs ConvRunProofs ConvStreamProofs ConvMoreProofs Stack StackSpec.
Import ListNotations.
Open Scope nat_scope.

Section StackProofs.
Context {V : Type}.
Implicit Types (L : layer V) (Ls : list (layer V)).

(** One layer over a sequence of batches. *)
Fixpoint layer_run L (st : buffers V) (xs : list (batch V)) : res (list (batch V) * buffers V) :=
  match xs with
  | [] => Ok ([], st)
  | x :: t => bind (layer_call L st x) (fun '(y, st1) => bind (layer_run L st1 t) (fun '(ys, st2) => Ok (y :: ys, st2)))
  end.

Lemma layer_run_conv c : forall xs st, layer_run (LConv c) st xs = conv_run c st xs.
Proof. induction xs; intros; simpl; auto. destruct (conv_call c st a) as [[y s]|]; simpl; auto. now rewrite IHxs. Qed.

Lemma layer_run_map (g : V -> V) : forall xs st, layer_run (LMap g) st xs = Ok (map (map_call g) xs, st).
Proof. induction xs; intros; simpl; auto. now rewrite IHxs. Qed.

(** The whole stack batch by batch is the same as the whole schedule layer by layer. *)
Lemma stack_run_cons L Ls : forall xs st sts ys sts', stack_run (L :: Ls) (st :: sts) xs = Ok (ys, sts') ->
  exists mid st1 sts1, layer_run L st xs = Ok (mid, st1) /\ stack_run Ls sts mid = Ok (ys, sts1) /\ sts' = st1 :: sts1.
Proof.
  induction xs as [|x xs IH]; intros st sts ys sts' H.
  - simpl in H. inversion H; subst. exists [], st, sts. auto.
  - cbn [stack_run stack_call] in H. apply bind_ok in H as ((y & s1) & H1 & H). apply bind_ok in H1 as ((m & st1) & H1 & H2).
    apply bind_ok in H2 as ((z & ss) & H2 & H3). inversion H3; subst. apply bind_ok in H as ((ys2 & s2) & H & H4). inversion H4; subst.
    destruct (IH _ _ _ _ H) as (mid & st2 & sts2 & A & B & ->).
    exists (m :: mid), st2, sts2. cbn [layer_run stack_run]. rewrite H1. cbn [bind]. rewrite A. cbn [bind]. rewrite H2. cbn [bind].
    rewrite B. auto.
Qed.

Lemma stack_run_nil : forall xs sts ys sts', stack_run (V := V) [] sts xs = Ok (ys, sts') -> ys = xs.
Proof.
  induction xs as [|x xs IH]; intros sts ys sts' H; simpl in H; [inversion H; auto|].
  apply bind_ok in H as ((ys2 & s2) & H & E). inversion E; subst. apply IH in H. now subst.
Qed.

Lemma map_repeat' (g : V -> V) z n : map g (repeat z n) = repeat (g z) n.
Proof. induction n; simpl; auto. now rewrite IHn. Qed.

Lemma map_tensor (g : V -> V) z t : map_call g (tensor_of z t)
  = tensor_of (g z) (mkTens (tw t) (th t) (map (fun r => set_data r (map g (cdat r))) (trows t))).
Proof.
  unfold map_call, tensor_of, batch_with. cbn [tw th trows bw bd bm]. f_equal.
  - rewrite !map_map. apply map_ext. intros r. cbn [set_data cdat]. rewrite map_app, map_repeat', map_length. reflexivity.
  - unfold of_rows. rewrite !map_map. cbn [rid rsos reos rlen rch set_data cid csos ceos cdat cch]. f_equal.
    apply map_ext. intros r. now rewrite map_length.
Qed.

Lemma stream_of_map (f : chunk V -> chunk V) i (s : list (list (chunk V))) : (forall r, cid (f r) = cid r) ->
  stream_of i (map (map f) s) = map f (stream_of i s).
Proof.
  intros Hf. unfold stream_of. rewrite <- concat_map. induction (List.concat s) as [|r l IH]; auto.
  simpl. rewrite Hf. destruct (String.eqb (cid r) i); simpl; now rewrite IH.
Qed.

Lemma follows_protocol : forall (l1 l2 : list (chunk V)) o, Forall2 follows l1 l2 -> protocol o l1 -> protocol o l2.
Proof.
  intros l1 l2 o H. revert o. induction H as [|r q l1 l2 (_ & Hs & He & _) HF IH]; intros o Hp; simpl in *; auto.
  rewrite Hs, He. destruct Hp; auto.
Qed.

Lemma follows_stream i : forall (s1 s2 : list (list (chunk V))), Forall2 (Forall2 follows) s1 s2 ->
  Forall2 follows (stream_of i s1) (stream_of i s2).
Proof.
  intros s1 s2 H. unfold stream_of.
  assert (G : Forall2 follows (List.concat s1) (List.concat s2)).
  { induction H; simpl; auto. apply Forall2_app; auto. }
  clear H. induction G as [|r q l1 l2 Hf HF IH]; simpl; auto. pose proof Hf as (E & _). rewrite E.
  destruct (String.eqb (cid r) i); auto.
Qed.

Lemma follows_cids (l1 l2 : list (chunk V)) : Forall2 follows l1 l2 -> map cid l2 = map cid l1.
Proof. induction 1 as [|r q l1 l2 (E & _) HF IH]; simpl; auto. now rewrite E, IH. Qed.

Lemma Forall2_len {A B} (P : A -> B -> Prop) l1 l2 : Forall2 P l1 l2 -> length l1 = length l2.
Proof. induction 1; simpl; auto. Qed.

Lemma follows_complete (l1 l2 : list (chunk V)) : Forall2 follows l1 l2 -> complete l1 -> complete l2.
Proof.
  intros HF [Hne H]. assert (HL : length l2 = length l1) by (symmetry; eapply Forall2_len; eauto).
  split.
  - intros ->. inversion HF; subst. congruence.
  - intros k q Hk. rewrite HL.
    assert (G : exists r, nth_error l1 k = Some r /\ follows r q).
    { clear - HF Hk. revert k Hk. induction HF; intros [|k] Hk; simpl in *; try discriminate; eauto. inversion Hk; subst. eauto. }
    destruct G as (r & Hr & (_ & -> & -> & _)). apply (H k r Hr).
Qed.

Lemma follows_trans (a b d : list (list (chunk V))) : Forall2 (Forall2 follows) a b -> Forall2 (Forall2 follows) b d -> Forall2 (Forall2 follows) a d.
Proof.
  intros H. revert d. induction H as [|x y a b Hxy Hab IH]; intros d Hd; inversion Hd; subst; constructor; auto.
  clear - Hxy H1. revert y0 H1. induction Hxy as [|r q x y (A & B & C & D) Hxy IH]; intros w Hw; inversion Hw; subst; constructor; auto.
  destruct H1 as (A' & B' & C' & D'). unfold follows. rewrite A', B', C', D'. auto.
Qed.

Lemma good_follows (s1 s2 : list (list (chunk V))) : good_schedule s1 -> Forall2 (Forall2 follows) s1 s2 ->
  (forall i, flagged_nonempty (stream_of i s2)) -> good_schedule s2.
Proof.
  intros [Hg Hp] HF Hfl. split.
  - assert (Hall : Forall (Forall (fun r : chunk V => csos r = true \/ ceos r = true -> cdat r <> [])) s2).
    { apply Forall_forall. intros rs Hrs. apply Forall_forall. intros r Hr. specialize (Hfl (cid r)).
      unfold flagged_nonempty in Hfl. rewrite Forall_forall in Hfl. apply Hfl. unfold stream_of. apply filter_In.
      split; [apply in_concat; eauto|apply String.eqb_refl]. }
    clear Hp Hfl. revert Hall. induction HF as [|x y s1 s2 Hxy HF IH]; intros Hall; constructor.
    + inversion Hg as [|? ? (Hne & Hnd & _) _]; subst. inversion Hall; subst. split; [|split]; auto.
      * intros ->. inversion Hxy; subst. congruence.
      * now rewrite (follows_cids _ _ Hxy).
    + inversion Hg; subst. inversion Hall; subst. auto.
  - intros i. eapply follows_protocol; [|apply Hp]. now apply follows_stream.
Qed.

Lemma layer_step L z z' Ls sched st st1 mid : good_layer L -> zero_preserving z (L :: Ls) z' -> st = no_buffers ->
  good_schedule (map trows sched) -> Forall tight sched ->
  layer_run L st (map (tensor_of z) sched) = Ok (mid, st1) ->
  exists z1 outs, zero_preserving z1 Ls z' /\ mid = map (tensor_of z1) outs /\ Forall tight outs /\
    Forall2 (Forall2 follows) (map trows sched) (map trows outs) /\
    (Forall (fun t => th t = false) sched -> Forall (fun t => th t = false) outs) /\
    forall i, stream_of i (map trows outs) = layer_chunks L (stream_of i (map trows sched)).
Proof.
  intros HL Hz -> Hg Ht H. destruct L as [c|g].
  - destruct HL as [Hv Hs]. destruct Hz as [<- Hz]. rewrite layer_run_conv in H. pose proof Hg as [Hg1 _].
    assert (Hf : Forall (fits c) sched).
    { clear - Hg1 Ht. induction sched as [|t s IH]; constructor; inversion Ht; subst; cbn [map] in Hg1; inversion Hg1 as [|? ? (Hne & _) Hg2]; subst; auto.
      now apply tight_fits. }
    destruct (run_spec c sched mid st1 Hv Hs Hg Hf H) as (outs & -> & HR & HF & Ho & _).
    exists (zout c), outs. split; auto. split; auto. split; [|split; auto; split; auto].
    + clear - HR Ht. induction HR as [|t u s o (_ & _ & H) HR IH]; constructor; inversion Ht; subst; auto.
    + clear - HR. induction HR as [|t u s o (H & _ & _) HR IH]; intros Hh; constructor; inversion Hh; subst; auto.
      destruct (th u); auto. specialize (H eq_refl). congruence.
  - rewrite layer_run_map in H. inversion H; subst. cbn [zero_preserving] in Hz.
    exists (g z), (map (fun t => mkTens (tw t) (th t) (map (fun r => set_data r (map g (cdat r))) (trows t))) sched).
    split; auto. rewrite !map_map. cbn [trows]. split; [|split; [|split; [|split]]].
    + apply map_ext. intros t. apply map_tensor.
    + apply Forall_forall. intros u Hu. apply in_map_iff in Hu as (t & <- & Hin). rewrite Forall_forall in Ht. specialize (Ht t Hin).
      unfold tight in *. cbn [tw trows]. rewrite Ht. unfold longest. rewrite map_map. f_equal. apply map_ext. intros r. cbn. now rewrite map_length.
    + clear. induction sched as [|t s IH]; simpl; constructor; auto. induction (trows t); simpl; constructor; auto. repeat split.
    + clear. intros Hh. induction Hh; simpl; constructor; auto.
    + intros i. rewrite <- (map_map trows (map (fun r => set_data r (map g (cdat r))))). now rewrite stream_of_map.
Qed.

Theorem stack_spec z' : forall Ls z sched ys sts', Forall good_layer Ls -> zero_preserving z Ls z' ->
  good_schedule (map trows sched) -> Forall tight sched ->
  (forall i, survives Ls (stream_of i (map trows sched))) ->
  stack_run Ls (fresh Ls) (map (tensor_of z) sched) = Ok (ys, sts') ->
  exists outs, ys = map (tensor_of z') outs /\ Forall tight outs /\
    Forall2 (Forall2 follows) (map trows sched) (map trows outs) /\
    (Forall (fun t => th t = false) sched -> Forall (fun t => th t = false) outs) /\
    forall i, stream_of i (map trows outs) = fold_left (fun l L => layer_chunks L l) Ls (stream_of i (map trows sched)).
Proof.
  induction Ls as [|L Ls IH]; intros z sched ys sts' HL Hz Hg Ht Hsv H.
  - apply stack_run_nil in H. simpl in Hz. subst. exists sched. repeat split; auto.
    clear. induction (map trows sched); constructor; auto. induction a; constructor; auto. repeat split.
  - inversion HL as [|? ? HL1 HL2]; subst. cbn [fresh map] in H. apply stack_run_cons in H as (mid & st1 & sts1 & H1 & H2 & ->).
    destruct (layer_step L z z' Ls sched _ _ _ HL1 Hz eq_refl Hg Ht H1) as (z1 & outs & Hz1 & -> & Ht1 & HF & Hth & Ho).
    destruct Ls as [|L2 Ls].
    + apply stack_run_nil in H2. simpl in Hz1. subst. exists outs. repeat split; auto.
    + assert (Hg1 : good_schedule (map trows outs)).
      { eapply good_follows; eauto. intros i. rewrite Ho. specialize (Hsv i). cbn [survives] in Hsv. tauto. }
      destruct (IH z1 outs ys sts1 HL2 Hz1 Hg1 Ht1) as (outs2 & -> & Ht2 & HF2 & Hth2 & Ho2); auto.
      { intros i. rewrite Ho. specialize (Hsv i). cbn [survives] in *. tauto. }
      exists outs2. repeat split; auto.
      * eapply follows_trans; eauto.
      * intros i. rewrite Ho2, Ho. reflexivity.
Qed.

(** The chunks of one stream through a stack: a complete segment gives the offline output. *)
Lemma layer_segment L l1 l l2 : good_layer L -> complete l ->
  exists o1 o o2, layer_chunks L (l1 ++ l ++ l2) = o1 ++ o ++ o2 /\ length o1 = length l1 /\ length o = length l /\
    complete o /\ data_of o = layer_offline L (data_of l).
Proof.
  intros HL Hc. destruct L as [c|g].
  - destruct HL as [Hv Hs]. cbn [layer_chunks]. destruct (segment_ideal c l1 l l2) as (p & ->). do 3 eexists. split; [reflexivity|].
    rewrite !ideal_length. split; auto. split; auto. split; [eapply follows_complete; [apply ideal_follows|auto]|]. now apply complete_ideal.
  - cbn [layer_chunks layer_offline]. rewrite !map_app. do 3 eexists. split; [reflexivity|]. rewrite !map_length.
    split; auto. split; auto. split.
    + eapply follows_complete; [|exact Hc]. clear. induction l; constructor; auto. repeat split.
    + unfold data_of. rewrite concat_map, !map_map. reflexivity.
Qed.

Lemma stack_segment : forall Ls l1 l l2, Forall good_layer Ls -> complete l ->
  exists o1 o o2, fold_left (fun l L => layer_chunks L l) Ls (l1 ++ l ++ l2) = o1 ++ o ++ o2 /\
    length o1 = length l1 /\ length o = length l /\ data_of o = stack_offline Ls (data_of l).
Proof.
  induction Ls as [|L Ls IH]; intros l1 l l2 HL Hc.
  - exists l1, l, l2. auto.
  - inversion HL; subst. destruct (layer_segment L l1 l l2 H1 Hc) as (o1 & o & o2 & E & E1 & E2 & Hco & Ed).
    destruct (IH o1 o o2 H2 Hco) as (p1 & p & p2 & F & F1 & F2 & Fd).
    exists p1, p, p2. cbn [fold_left]. rewrite E, F. repeat split; try congruence.
    rewrite Fd, Ed. reflexivity.
Qed.

Theorem stack_offline_equiv Ls z z' sched ys sts' : Forall good_layer Ls -> zero_preserving z Ls z' ->
  good_schedule (map trows sched) -> Forall tight sched ->
  (forall i, survives Ls (stream_of i (map trows sched))) ->
  stack_run Ls (fresh Ls) (map (tensor_of z) sched) = Ok (ys, sts') ->
  exists outs, ys = map (tensor_of z') outs /\
    Forall2 (Forall2 follows) (map trows sched) (map trows outs) /\
    forall i l1 l l2, stream_of i (map trows sched) = l1 ++ l ++ l2 -> complete l ->
      exists o1 o o2, stream_of i (map trows outs) = o1 ++ o ++ o2 /\ length o1 = length l1 /\ length o = length l /\
        data_of o = stack_offline Ls (data_of l).
Proof.
  intros HL Hz Hg Ht Hsv H. destruct (stack_spec z' Ls z sched ys sts' HL Hz Hg Ht Hsv H) as (outs & -> & _ & HF & _ & Ho).
  exists outs. split; auto. split; auto. intros i l1 l l2 E Hc. rewrite Ho, E. now apply stack_segment.
Qed.

End StackProofs.

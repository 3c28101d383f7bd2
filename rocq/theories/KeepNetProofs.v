(** Proofs: a network that streams batches with chunk indices into the collector. *)

From Coq Require Import String List ZArith Bool Lia.
From Coq Require Import ZifyBool.
From Verif Require Import Py Meta MetaSpec MetaProofs MetaLenProofs Pad Conv ConvSpec ConvProofs ConvRunProofs ConvStreamProofs ConvMoreProofs
  Stack StackSpec StackProofs StackLiveProofs PadProofs Collector CollectorSpec CollectorProofs Pipeline PipelineSpec PipelineProofs
  Program ProgramRunProofs KeepSpec KeepProofs KeepCollectProofs.
Import ListNotations.
Open Scope nat_scope.

Section KeepNet.
Context {V : Type}.
Implicit Types (L : layer V) (Ls : list (layer V)) (l : list (chunk V)).

Lemma update_cons_err (c c' : collector V) y ys e : update c (InBatch y :: map InBatch ys) = (c', Some e) ->
  (exists c1, update c [InBatch y] = (c1, Some e)) \/
  exists c1, update c [InBatch y] = (c1, None) /\ update c1 (map InBatch ys) = (c', Some e).
Proof. cbn [update]. destruct (update_one c (InBatch y)) as [c1 [e'|]]; [intros H; inversion H; eauto|]. eauto. Qed.

Lemma stream_loop_err Ls : forall xs sts c ys sts' c' e, stack_run Ls sts xs = Ok (ys, sts') -> update c (map InBatch ys) = (c', Some e) ->
  stream_loop Ls sts c xs = Err e.
Proof.
  induction xs as [|x xs IH]; intros sts c ys sts' c' e H Hu; cbn [stack_run] in H.
  - inversion H; subst. cbn in Hu. inversion Hu.
  - apply bind_ok in H as ((y & s1) & Hy & H). apply bind_ok in H as ((ys' & s2) & Hys & E). inversion E; subst.
    cbn [map] in Hu. cbn [stream_loop]. rewrite Hy. cbn [bind].
    apply update_cons_err in Hu as [(c1 & U1)|(c1 & U1 & U2)]; rewrite U1; eauto.
Qed.

Lemma nonempty_joined h i l e : complete l -> flagged_nonempty l -> Forall (fun r => cid r = i) l -> nth_error l (length l - 1) = Some e ->
  joined h (filter nonempty l) (mkSingle (data_of l) (mkMeta [i] [true] [true] [Z.of_nat (length (data_of l))] (if h then Some [cch e] else None))).
Proof.
  intros Hc Hf Hi He. pose proof (data_of_nonempty l) as Hd. unfold flagged_nonempty in Hf. rewrite Forall_forall in Hf, Hi.
  assert (Hk : forall r, In r l -> csos r = true \/ ceos r = true -> nonempty r = true).
  { intros r Hr Hfl. specialize (Hf r Hr Hfl). unfold nonempty. destruct (cdat r); [congruence|reflexivity]. }
  destruct (PipelineProofs.complete_shape l Hc) as [(r & -> & A & B)|(f & m & e' & -> & A & B & C & D & E)].
  - cbn in He. inversion He; subst e. assert (Hr : nonempty r = true) by (apply Hk; [left|]; auto). cbn [filter] in *. rewrite Hr in *.
    exists r, r. split; auto. split; auto. rewrite A, B, (Hi r) by (left; auto). reflexivity.
  - assert (e' = e).
    { cbn [length] in He. rewrite app_length in He. cbn [length] in He. replace (S (length m + 1) - 1) with (S (length m)) in He by lia.
      cbn [nth_error] in He. rewrite nth_error_app2, Nat.sub_diag in He by auto. cbn in He. congruence. }
    subst e'. assert (Hf' : nonempty f = true) by (apply Hk; [left|]; auto).
    assert (He' : nonempty e = true) by (apply Hk; [right; apply in_app_iff; right; left|]; auto).
    assert (Eq : filter nonempty (f :: m ++ [e]) = f :: filter nonempty m ++ [e]).
    { cbn [filter]. rewrite Hf', filter_app. cbn [filter]. now rewrite He'. }
    rewrite Eq in *. exists f, e. split; [reflexivity|]. split.
    + cbn [length]. rewrite app_length. cbn [length]. replace (S (length (filter nonempty m) + 1) - 1) with (S (length (filter nonempty m))) by lia.
      cbn [nth_error]. rewrite nth_error_app2, Nat.sub_diag; auto.
    + rewrite Hd, A, D, (Hi f) by (left; auto). reflexivity.
Qed.

(* ---------- marks and agreement ---------- *)

Definition deliver (t : tens V) : bool * delivery V := (th t, DBatch (tw t) (trows t)).

Lemma in_marks (outs : list (tens V)) h r : In (h, r) (List.concat (map marked (map deliver outs))) <->
  exists j t, nth_error outs j = Some t /\ th t = h /\ In r (trows t) /\ cdat r <> [].
Proof.
  rewrite in_concat. split.
  - intros (x & Hx & Hin). rewrite map_map in Hx. apply in_map_iff in Hx as (t & <- & Ht). unfold marked, deliver in Hin. cbn [fst snd delivered] in Hin.
    apply in_map_iff in Hin as (q & E & Hq). inversion E; subst. apply filter_In in Hq as [Hq Hn]. apply In_nth_error in Ht as (j & Hj).
    exists j, t. repeat split; auto. intros Ed. rewrite Ed in Hn. discriminate.
  - intros (j & t & Hj & Hh & Hr & Hd). exists (marked (deliver t)). split; [do 2 apply in_map; eapply nth_error_In; eauto|].
    unfold marked, deliver. cbn [fst snd delivered]. apply in_map_iff. exists r. rewrite Hh. split; auto. apply filter_In. split; auto.
    destruct (cdat r); [congruence|reflexivity].
Qed.

Lemma same_marks_iff (p : list (bool * chunk V)) : same_marks p <-> forall h r g q, In (h, r) p -> In (g, q) p -> h = g.
Proof.
  split.
  - destruct p as [|[h0 r0] p]; [intros _ h r g q []|]. cbn [same_marks]. intros H h r g q H1 H2. rewrite Forall_forall in H.
    assert (G : forall h r, In (h, r) ((h0, r0) :: p) -> h = h0).
    { intros h' r' [E|Hin]; [congruence|]. exact (H _ Hin). }
    rewrite (G _ _ H1), (G _ _ H2). reflexivity.
  - destruct p as [|[h0 r0] p]; cbn [same_marks]; auto. intros H. apply Forall_forall. intros [h r] Hin. cbn [fst]. eapply (H h r h0 r0); [now right|now left].
Qed.

Lemma agreeing_marks (outs : list (tens V)) : agreeing (map th outs) (map trows outs) <->
  forall i, same_marks (mark_of i (List.concat (map marked (map deliver outs)))).
Proof.
  split.
  - intros H i. apply same_marks_iff. intros h r g q H1 H2. apply filter_In in H1 as [H1 E1], H2 as [H2 E2]. cbn [snd] in *.
    apply String.eqb_eq in E1, E2. apply in_marks in H1 as (j & t & Hj & <- & Hr & Hd), H2 as (k & u & Hk & <- & Hq & Hd2).
    apply (H j k (th t) (th u) (trows t) (trows u) r q); auto; try (apply map_nth_error; assumption). congruence.
  - intros H j k h g rs qs r q Hh Hg Hrs Hqs Hr Hq Ei Hd Hd2. specialize (H (cid r)). rewrite same_marks_iff in H.
    assert (G : forall j h rs r, nth_error (map th outs) j = Some h -> nth_error (map trows outs) j = Some rs -> In r rs -> cdat r <> [] ->
      In (h, r) (List.concat (map marked (map deliver outs)))).
    { clear. intros j h rs r Hh Hrs Hr Hd. rewrite nth_error_map in Hh, Hrs. destruct (nth_error outs j) as [t|] eqn:E; [|discriminate].
      cbn in *. inversion Hh; inversion Hrs; subst. apply in_marks. eauto 10. }
    apply (H h r g q); apply filter_In; cbn [snd]; (split; [eauto|apply String.eqb_eq; auto]).
Qed.

Lemma out_schedule_stream i : forall Ls (sched : list (list (chunk V))), good_schedule sched -> (forall i, survives Ls (stream_of i sched)) ->
  stream_of i (out_schedule Ls sched) = fold_left (fun l L => layer_chunks L l) Ls (stream_of i sched).
Proof.
  induction Ls as [|L Ls IH]; intros sched Hg Hsv; [reflexivity|]. cbn [out_schedule fold_left]. fold (out_schedule Ls (layer_schedule L sched)).
  pose proof Hg as [Hg1 _]. rewrite <- layer_schedule_stream by auto. destruct Ls as [|L2 Ls]; [reflexivity|]. apply IH.
  - eapply good_layer_schedule; eauto. discriminate.
  - intros j. rewrite layer_schedule_stream by auto. specialize (Hsv j). cbn [survives] in *. tauto.
Qed.

Lemma mark_stream i (outs : list (tens V)) :
  map snd (mark_of i (List.concat (map marked (map deliver outs)))) = filter nonempty (stream_of i (map trows outs)).
Proof.
  rewrite <- mark_of_ids. unfold of_id, stream_of. rewrite map_map. rewrite concat_map, !map_map.
  induction outs as [|t outs IH]; auto. cbn [map List.concat]. rewrite !filter_app, IH. f_equal.
  unfold marked, deliver. cbn [fst snd delivered]. rewrite map_map. cbn [snd]. rewrite map_id.
  induction (trows t) as [|r rs IHr]; auto. cbn [filter].
  fold (nonempty r). destruct (nonempty r) eqn:En, (String.eqb (cid r) i) eqn:Ei; cbn [filter]; rewrite ?En, ?Ei, ?IHr; auto.
Qed.

Theorem collected_network Ls z z' (sched : list (tens V)) ys sts' : Forall good_layer Ls -> zero_preserving z Ls z' ->
  good_schedule (map trows sched) -> Forall tight sched ->
  (forall i, stream_of i (map trows sched) = [] \/ complete (stream_of i (map trows sched))) ->
  (forall i, survives_through Ls (stream_of i (map trows sched))) ->
  stack_run Ls (fresh Ls) (map (tensor_of z) sched) = Ok (ys, sts') ->
  let hs := carried Ls (map trows sched) (map th sched) in
  let os := out_schedule Ls (map trows sched) in
  (agreeing hs os -> exists c, stream_loop Ls (fresh Ls) new_collector (map (tensor_of z) sched) = Ok c /\
     forall i, (stream_of i (map trows sched) = [] -> entries c i = None) /\
       forall e j h rs, nth_error (stream_of i (map trows sched)) (length (stream_of i (map trows sched)) - 1) = Some e ->
         nth_error hs j = Some h -> nth_error os j = Some rs -> (exists r, In r rs /\ cid r = i /\ cdat r <> []) ->
         let d := stack_offline Ls (data_of (stream_of i (map trows sched))) in
         entries c i = Some (mkSingle d (mkMeta [i] [true] [true] [Z.of_nat (length d)] (if h then Some [cch e] else None)))) /\
  (~ agreeing hs os -> stream_loop Ls (fresh Ls) new_collector (map (tensor_of z) sched) = Err ValueError).
Proof.
  intros HL Hz Hg Ht Hcm Hst Hrun hs os.
  assert (Hsv : forall i, survives Ls (stream_of i (map trows sched))) by (intros i; apply survives_through_survives, Hst).
  destruct (stack_indices z' Ls z sched ys sts' HL Hz Hg Ht Hsv Hrun) as (outs & -> & Hto & Eo & Eh).
  assert (Hos : forall i, stream_of i os = fold_left (fun l L => layer_chunks L l) Ls (stream_of i (map trows sched))).
  { intros i. apply out_schedule_stream; auto. }
  set (qs := map deliver outs).
  assert (Eq : map (@InBatch V) (map (tensor_of z') outs) = map (fun q => as_input z' (fst q) (snd q)) qs).
  { unfold qs. rewrite !map_map. apply map_ext. intros [w h rs]. reflexivity. }
  assert (Hout : forall i, stream_of i os = [] \/ (complete (stream_of i os) /\ flagged_nonempty (stream_of i os) /\ Forall (fun r => cid r = i) (stream_of i os))).
  { intros i. rewrite Hos. destruct (Hcm i) as [E|Hc]; [left; rewrite E; apply stack_nil|right].
    pose proof (stack_follows Ls (stream_of i (map trows sched))) as Hfo. split; [eapply follows_complete; eauto|].
    split; [apply (survives_through_survives _ _ (Hst i))|]. eapply follows_ids; eauto. apply Forall_forall. intros r Hr. apply filter_In in Hr as [_ Hr].
    now apply String.eqb_eq in Hr. }
  destruct (collects_marked z' qs) as [A B].
  { apply Forall_forall. intros q Hq. unfold qs in Hq. apply in_map_iff in Hq as (t & <- & Hti). cbn [deliver snd wide_enough].
    rewrite Forall_forall in Hto. specialize (Hto t Hti). unfold tight in Hto. lia. }
  { intros i. replace (stream_of i (map delivered (map snd qs))) with (map snd (mark_of i (List.concat (map marked qs)))).
    - unfold qs. rewrite mark_stream, Eo. fold os. destruct (Hout i) as [->|(H1 & H2 & H3)]; [intros [|k] r Hk; discriminate|]. now apply (nonempty_conforming i).
    - rewrite <- mark_of_ids. unfold of_id, stream_of. f_equal. rewrite concat_map, !map_map. f_equal. apply map_ext. intros q. unfold marked. rewrite map_map. apply map_id. }
  assert (Hag : agreeing hs os <-> forall i, same_marks (mark_of i (List.concat (map marked qs)))).
  { unfold hs, os. rewrite <- Eo, <- Eh. apply agreeing_marks. }
  split.
  - intros H0. pose proof (proj1 Hag H0) as Hsame. destruct (A Hsame) as (c & Hu & Hent). exists c. split.
    { eapply stream_loop_ok; eauto. now rewrite Eq. }
    intros i. specialize (Hent i). unfold qs in Hent. rewrite mark_stream, Eo in Hent. fold os in Hent. split.
    + intros E. rewrite Hos, E, stack_nil in Hent. destruct (entries c i) as [x|] eqn:Ex; auto.
      destruct (proj1 (Hent x) eq_refl) as (f & e & H1 & _). discriminate.
    + intros e j h rs He Hj Hrs (r & Hr & Hir & Hdr) d. apply Hent.
      destruct (Hout i) as [E|(H1 & H2 & H3)].
      { exfalso. assert (G : In r (stream_of i os)); [|rewrite E in G; destruct G]. apply filter_In. split; [apply in_concat; exists rs; split; auto; eapply nth_error_In; eauto|now apply String.eqb_eq]. }
      destruct (Hcm i) as [E|Hc]; [exfalso; rewrite E in He; destruct (0 - 1); discriminate|].
      assert (Em : first_mark (mark_of i (List.concat (map marked (map deliver outs)))) = h).
      { assert (Hin : In (h, r) (mark_of i (List.concat (map marked (map deliver outs))))).
        { apply filter_In. split; [|now apply String.eqb_eq]. unfold hs in Hj. rewrite <- Eh in Hj. unfold os in Hrs. rewrite <- Eo in Hrs.
          rewrite nth_error_map in Hj, Hrs. destruct (nth_error outs j) as [t|] eqn:Et; [|discriminate]. cbn in Hj, Hrs. inversion Hj; inversion Hrs; subst.
          apply in_marks. eauto 10. }
        specialize (Hsame i). rewrite same_marks_iff in Hsame. unfold qs in Hsame.
        destruct (mark_of i (List.concat (map marked (map deliver outs)))) as [|[g q] p]; [destruct Hin|]. cbn [first_mark].
        eapply Hsame; [left; reflexivity|exact Hin]. }
      rewrite Em. pose proof (stack_follows Ls (stream_of i (map trows sched))) as Hfo. rewrite <- Hos in Hfo.
      assert (Hlast : exists e', nth_error (stream_of i os) (length (stream_of i os) - 1) = Some e' /\ cch e' = cch e).
      { rewrite <- (Forall2_len _ _ _ Hfo). clear - Hfo He. revert He. generalize (length (stream_of i (map trows sched)) - 1). induction Hfo as [|a b l1 l2 (_ & _ & _ & E) HF IH]; intros [|n] He; try discriminate.
        - cbn in He. inversion He; subst. exists b. split; auto.
        - cbn [nth_error] in *. auto. }
      destruct Hlast as (e' & He' & <-).
      assert (Ed : data_of (stream_of i os) = d).
      { unfold d. rewrite Hos. destruct (stack_segment Ls [] (stream_of i (map trows sched)) [] HL Hc) as (o1 & o & o2 & E & E1 & E2 & Ed).
        cbn [app] in E. rewrite app_nil_r in E. destruct o1; [|discriminate]. cbn [app] in E.
        assert (o2 = []).
        { apply (f_equal (@length (chunk V))) in E. rewrite app_length in E. rewrite <- Hos in E.
          rewrite <- (Forall2_len _ _ _ Hfo) in E. destruct o2; auto. cbn [length] in E. lia. }
        subst o2. rewrite app_nil_r in E. rewrite E, Ed. reflexivity. }
      rewrite <- Ed. now apply nonempty_joined.
  - intros H. rewrite Hag in H. destruct (B H) as (c & Hu). eapply stream_loop_err; eauto. rewrite Eq. eauto.
Qed.

End KeepNet.

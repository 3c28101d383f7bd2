(** Proofs about the chunk indices of the outputs of a network. *)

From Coq Require Import String List ZArith Bool Lia.
From Coq Require Import ZifyBool.
From Verif Require Import Py Meta MetaSpec Pad Conv ConvSpec ConvProofs ConvRunProofs ConvStreamProofs ConvMoreProofs Stack StackSpec StackProofs
  StackLiveProofs KeepSpec.
Import ListNotations.
Open Scope nat_scope.

Section KeepProofs.
Context {V : Type}.
Implicit Types (L : layer V) (Ls : list (layer V)) (c : conv_cfg V).

Definition some_chs (m : meta) : bool := match chs m with Some _ => true | None => false end.

Lemma tensor_chs z (t : tens V) : some_chs (bm (tensor_of z t)) = th t.
Proof. unfold some_chs, tensor_of, batch_with, of_rows. cbn. now destruct (th t). Qed.

(* ---------- one call ---------- *)

Lemma conv1d_chs c (x y : batch V) tmp : conv1d c x = Ok (y, tmp) -> chs (bm y) = chs (bm x).
Proof.
  unfold conv1d. intros H. apply bind_ok in H as (((w1 & rows1) & np) & _ & H). apply bind_ok in H as (tmp' & _ & H).
  apply bind_ok in H as ((wo & out) & _ & H). apply bind_ok in H as (mask & _ & H). inversion H; subst. cbn [bm with_lens chs].
  destruct (0 <? padn c); reflexivity.
Qed.

Lemma pad_chunks_chs z (ds : list (list V)) names is ss es x : pad_chunks z ds names is ss es = Ok x -> chs (bm x) = None.
Proof.
  unfold pad_chunks. destruct (existsb _ names); [discriminate|]. destruct (negb _); [discriminate|]. intros H.
  apply bind_ok in H as ((w & rows) & _ & H). apply bind_ok in H as (m & Hm & H). inversion H; subst. cbn [bm].
  unfold make_meta in Hm. destruct (_ && _); [|discriminate]. now inversion Hm.
Qed.

Definition even_buffers (st : buffers V) (m : meta) : bool :=
  match map buffer_len (buffer_data st m) with [] => true | r :: t => forallb (fun n => Z.eqb n r) (r :: t) end.

Lemma call_chs c st (x y : batch V) st' : conv_call c st x = Ok (y, st') ->
  chs (bm y) = if negb (1 <? kernel_width c)%Z || all_starting (bm x) || even_buffers st (bm x) then chs (bm x) else None.
Proof.
  unfold conv_call. intros H. apply bind_ok in H as (x1 & Hp & H). apply bind_ok in H as ((y' & tmp) & Hc & H). inversion H; subst.
  rewrite (conv1d_chs _ _ _ _ Hc). clear Hc H. unfold pre_hook in Hp. unfold even_buffers.
  destruct (1 <? kernel_width c)%Z; cbn [negb orb andb] in *; [|now inversion Hp].
  destruct (all_starting (bm x)); cbn [negb orb] in *; [now inversion Hp|].
  destruct (map buffer_len (buffer_data st (bm x))) as [|r t] eqn:E; [discriminate|].
  destruct (forallb (fun n => Z.eqb n r) (r :: t)) eqn:Ef.
  - apply bind_ok in Hp as (bs & _ & Hp). unfold cat_front in Hp. destruct (Nat.eqb _ _); [|discriminate]. inversion Hp; subst. reflexivity.
  - apply bind_ok in Hp as (xs & _ & Hp). unfold pad_stream_tensor in Hp. apply bind_ok in Hp as (m & _ & Hp). eapply pad_chunks_chs; eauto.
Qed.

(* ---------- a run ---------- *)

Definition wait c (past : string -> option (list V)) (r : chunk V) : nat :=
  if csos r then 0 else let n := length (so_far (past (cid r))) in n - nwin c n * strd c.
Definition keeps_at c past (rs : list (chunk V)) : bool :=
  (kspan c =? 1) || forallb (fun r => forallb (fun q => wait c past r =? wait c past q) rs) rs.

Fixpoint run_keeps c past (sched : list (tens V)) : list bool :=
  match sched with
  | [] => []
  | t :: s => (th t && keeps_at c past (trows t)) :: run_keeps c (advance c past (trows t)) s
  end.

Lemma forallb_ext_in' {A} (f g : A -> bool) l : (forall a, In a l -> f a = g a) -> forallb f l = forallb g l.
Proof. induction l; intros H; simpl; auto. rewrite H by (left; auto). f_equal. apply IHl. intros. apply H. now right. Qed.

Lemma forallb_map' {A B} (f : A -> B) (p : B -> bool) l : forallb p (map f l) = forallb (fun a => p (f a)) l.
Proof. induction l; simpl; auto. now rewrite IHl. Qed.

Lemma forallb_pairs {A} (f : A -> nat) a l : forallb (fun x => f x =? f a) (a :: l) = forallb (fun x => forallb (fun y => f x =? f y) (a :: l)) (a :: l).
Proof.
  apply eq_true_iff_eq. rewrite !forallb_forall. split; intros H x Hx.
  - apply forallb_forall. intros y Hy. specialize (H x Hx) as H1. specialize (H y Hy). apply Nat.eqb_eq in H, H1. apply Nat.eqb_eq. congruence.
  - specialize (H x Hx). rewrite forallb_forall in H. apply H. now left.
Qed.

Lemma keeps_call c st past (t : tens V) : valid_cfg c -> matches c st past -> in_step past (trows t) -> trows t <> [] ->
  negb (1 <? kernel_width c)%Z || all_starting (bm (tensor_of (zin c) t)) || even_buffers st (bm (tensor_of (zin c) t)) = keeps_at c past (trows t).
Proof.
  intros Hv Hm Hin Hne. rewrite kernel_width_eq by auto. unfold keeps_at.
  unfold all_starting, even_buffers, buffer_data, tensor_of, batch_with. cbn [bm sos ids of_rows]. rewrite !map_map. cbn [rsos rid]. rewrite all_true_map.
  assert (1 <= kspan c) by (unfold kspan; apply Nat.le_add_l).
  destruct (kspan c =? 1) eqn:E1; cbn [orb].
  { replace (1 <? Z.of_nat (kspan c))%Z with false by lia. reflexivity. }
  replace (1 <? Z.of_nat (kspan c))%Z with true by lia. cbn [negb orb]. set (rs := trows t) in *.
  destruct (forallb csos rs) eqn:Es; cbn [orb].
  { symmetry. rewrite forallb_forall in Es. apply forallb_forall. intros r Hr. apply forallb_forall. intros q Hq.
    unfold wait. rewrite (Es r Hr), (Es q Hq). reflexivity. }
  assert (Hw : forall r, In r rs -> buffer_len (st (cid r)) = Z.of_nat (wait c past r)).
  { intros r Hr. rewrite (Hm (cid r)). replace (1 <? kspan c) with true by lia. unfold wait. destruct (Hin r Hr) as [H1 H2]. destruct (csos r).
    - destruct H2 as [->|H2]; auto. exfalso. apply not_true_iff_false in Es. apply Es. apply forallb_forall. exact H2.
    - specialize (H1 eq_refl). destruct (past (cid r)) as [A|]; [|congruence]. cbn [option_map buffer_len so_far]. unfold zlen, leftover. now rewrite skipn_length. }
  destruct rs as [|a l]; [congruence|].
  rewrite <- forallb_pairs. cbn [map]. change (buffer_len (st (cid a)) :: map (fun x => buffer_len (st (cid x))) l) with (map (fun x : chunk V => buffer_len (st (cid x))) (a :: l)).
  rewrite forallb_map'. apply forallb_ext_in'. intros r Hr. rewrite (Hw r Hr), (Hw a) by now left. lia.
Qed.

Lemma run_th c : valid_cfg c -> strd c <= kspan c -> forall (sched : list (tens V)) st past ys st',
  Forall good_batch (map trows sched) -> Forall (fits c) sched -> on_course c past (map trows sched) -> matches c st past ->
  conv_run c st (map (tensor_of (zin c)) sched) = Ok (ys, st') ->
  map (fun y => some_chs (bm y)) ys = run_keeps c past sched.
Proof.
  intros Hv Hs. induction sched as [|t sched IH]; intros st past ys st' Hg Hf Hp Hm Hrun.
  - simpl in Hrun. now inversion Hrun.
  - cbn [map] in *. inversion Hg as [|? ? Hg1 Hg2]; subst. inversion Hf as [|? ? Hf1 Hf2]; subst. destruct Hp as [Hin Hp2].
    cbn [conv_run] in Hrun. apply bind_ok in Hrun as ((y & st1) & Hc & Hrun). apply bind_ok in Hrun as ((ys' & st2) & Hr & E). inversion E; subst. clear E.
    cbn [map run_keeps]. f_equal.
    + apply call_chs in Hc. rewrite (keeps_call c st past t Hv Hm Hin) in Hc by apply Hg1. unfold some_chs at 1. rewrite Hc.
      rewrite <- (tensor_chs (zin c) t). destruct (keeps_at c past (trows t)); [now rewrite andb_true_r|now rewrite andb_false_r].
    + pose proof (call_step c st past t Hv Hs Hg1 Hf1 Hm Hin) as HO. rewrite Hc in HO. inversion HO; subst. eapply IH; eauto.
Qed.

Lemma run_keeps_schedule c : forall (sched : list (tens V)) past, Forall good_batch (map trows sched) ->
  run_keeps c past sched
  = map (fun k => nth k (map th sched) false && keeps_at c (fun i => pending c (past i) (stream_of i (firstn k (map trows sched)))) (nth k (map trows sched) []))
        (seq 0 (length sched)).
Proof.
  induction sched as [|t sched IH]; intros past Hg; [reflexivity|]. cbn [map] in Hg. inversion Hg as [|? ? (_ & Hnd & _) Hg2]; subst.
  cbn [run_keeps length seq map nth firstn]. f_equal. rewrite IH, <- seq_shift, map_map by auto.
  apply map_ext. intros n. cbn [nth firstn]. f_equal. unfold keeps_at. f_equal.
  apply forallb_ext_in'. intros r _. apply forallb_ext_in'. intros q _. unfold wait. rewrite !pending_step by auto. reflexivity.
Qed.

Theorem conv_indices c (sched : list (tens V)) ys st' : valid_cfg c -> strd c <= kspan c ->
  good_schedule (map trows sched) -> Forall (fits c) sched ->
  conv_run c no_buffers (map (tensor_of (zin c)) sched) = Ok (ys, st') ->
  map (fun y => some_chs (bm y)) ys = carried [LConv c] (map trows sched) (map th sched).
Proof.
  intros Hv Hs Hg Hf Hrun. pose proof Hg as [Hg1 _]. rewrite (run_th c Hv Hs sched _ _ ys st' Hg1 Hf (good_course c _ Hg) (matches_none c) Hrun).
  rewrite run_keeps_schedule by auto. cbn [carried]. rewrite map_length. reflexivity.
Qed.

(* ---------- a stack ---------- *)

Lemma layer_keeps L z z' Ls (sched : list (tens V)) st1 mid : good_layer L -> zero_preserving z (L :: Ls) z' ->
  good_schedule (map trows sched) -> Forall tight sched ->
  layer_run L no_buffers (map (tensor_of z) sched) = Ok (mid, st1) ->
  exists z1 outs, zero_preserving z1 Ls z' /\ mid = map (tensor_of z1) outs /\ Forall tight outs /\
    map trows outs = layer_schedule L (map trows sched) /\
    forall hs, hs = map th sched -> carried (L :: Ls) (map trows sched) hs = carried Ls (map trows outs) (map th outs).
Proof.
  intros HL Hz Hg Ht H. pose proof Hg as [Hg1 _].
  destruct (layer_mid L z z' Ls sched st1 mid HL Hz Hg Ht H) as (z1 & outs & Hz1 & -> & Ht1 & Eo).
  exists z1, outs. split; auto. split; auto. split; auto. split; auto. intros hs ->. rewrite Eo.
  destruct L as [c|g].
  - destruct HL as [Hv Hs]. destruct Hz as [<- Hz]. rewrite layer_run_conv in H.
    assert (Hf : Forall (fits c) sched).
    { clear - Hg1 Ht. induction sched as [|t s IH]; constructor; inversion Ht; subst; cbn [map] in Hg1; inversion Hg1 as [|? ? (Hne & _) Hg2]; subst; auto.
      now apply tight_fits. }
    pose proof (conv_indices c sched _ _ Hv Hs Hg Hf H) as E. cbn [carried] in E. cbn [carried]. rewrite <- E, map_map.
    f_equal. apply map_ext. intros t. apply tensor_chs.
  - rewrite layer_run_map in H. inversion H as [H1]. cbn [carried]. f_equal.
    apply (f_equal (map (fun x => some_chs (bm x)))) in H1. rewrite !map_map in H1. cbn [map_call bm] in H1.
    rewrite (map_ext _ th) in H1 by (intros; apply tensor_chs). rewrite (map_ext (fun x => some_chs (bm (tensor_of z1 x))) th) in H1 by (intros; apply tensor_chs). auto.
Qed.

Theorem stack_indices z' : forall Ls z (sched : list (tens V)) ys sts', Forall good_layer Ls -> zero_preserving z Ls z' ->
  good_schedule (map trows sched) -> Forall tight sched -> (forall i, survives Ls (stream_of i (map trows sched))) ->
  stack_run Ls (fresh Ls) (map (tensor_of z) sched) = Ok (ys, sts') ->
  exists outs, ys = map (tensor_of z') outs /\ Forall tight outs /\ map trows outs = out_schedule Ls (map trows sched) /\
    map th outs = carried Ls (map trows sched) (map th sched).
Proof.
  induction Ls as [|L Ls IH]; intros z sched ys sts' HL Hz Hg Ht Hsv H.
  - apply stack_run_nil in H. cbn in Hz. subst. exists sched. auto.
  - inversion HL as [|? ? HL1 HL2]; subst. pose proof Hg as [Hg1 _]. cbn [fresh map] in H. apply stack_run_cons in H as (mid & st1 & sts1 & H1 & H2 & ->).
    destruct (layer_keeps L z z' Ls sched _ _ HL1 Hz Hg Ht H1) as (z1 & outs & Hz1 & -> & Ht1 & Eo & Ec). cbn [out_schedule fold_left].
    rewrite (Ec _ eq_refl), <- Eo. destruct Ls as [|L2 Ls].
    + apply stack_run_nil in H2. cbn in Hz1. subst. exists outs. auto.
    + destruct (IH z1 outs ys sts1 HL2 Hz1) as (outs2 & -> & Ht2 & E2 & E3); auto.
      * rewrite Eo. eapply good_layer_schedule; eauto. discriminate.
      * intros i. rewrite Eo, layer_schedule_stream by auto. specialize (Hsv i). cbn [survives] in *. tauto.
      * exists outs2. auto.
Qed.

End KeepProofs.

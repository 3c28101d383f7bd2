(** Proofs: what torch selects for an index expression, for every rank. *)

From Coq Require Import String List ZArith Bool Lia.
From Coq Require Import ZifyBool.
From Verif Require Import Py Meta MetaSpec MetaProofs MetaLenProofs MetaSplitProofs Named NamedSpec NamedProofs.
Import ListNotations.
Open Scope Z_scope.

(* ---------- selections over several dimensions ---------- *)

Lemma picks_all_len ns is ss : picks_all ns is ss -> length is = length ns /\ length ss = length ns.
Proof. induction 1; simpl; lia. Qed.

Lemma picks_all_app_inv is1 : forall ns is2 ss, picks_all ns (is1 ++ is2) ss ->
  exists n1 n2 s1 s2, ns = n1 ++ n2 /\ ss = s1 ++ s2 /\ picks_all n1 is1 s1 /\ picks_all n2 is2 s2.
Proof.
  induction is1 as [|i is1 IH]; intros ns is2 ss H.
  - exists [], ns, [], ss. repeat split; auto. constructor.
  - inversion H as [|n ? s ns' ? ss' Hp Hr]; subst. destruct (IH _ _ _ Hr) as (n1 & n2 & s1 & s2 & -> & -> & A & B).
    exists (n :: n1), n2, (s :: s1), s2. repeat split; auto. constructor; auto.
Qed.

Lemma picks_all_app n1 is1 s1 n2 is2 s2 : picks_all n1 is1 s1 -> picks_all n2 is2 s2 ->
  picks_all (n1 ++ n2) (is1 ++ is2) (s1 ++ s2).
Proof. induction 1; simpl; auto. constructor; auto. Qed.

Lemma picks_all_repeat ns : picks_all ns (repeat all_item (length ns)) (repeat Full (length ns)).
Proof. induction ns; simpl; constructor; auto. constructor. Qed.

Lemma picks_all_repeat_inv ns k ss : picks_all ns (repeat all_item k) ss -> length ns = k /\ ss = repeat Full k.
Proof.
  revert ns ss; induction k; intros ns ss H; simpl in *; inversion H as [|n i s ns' is' ss' Hp Hr]; subst; auto.
  apply IHk in Hr as [<- ->]. split; auto. f_equal. eapply picks_fun; eauto. constructor.
Qed.

Lemma picks_all_fun ns is s1 s2 : picks_all ns is s1 -> picks_all ns is s2 -> s1 = s2.
Proof.
  intros H; revert s2; induction H; intros s2 H2; inversion H2; subst; auto.
  f_equal; auto. eapply picks_fun; eauto.
Qed.

Lemma picks_all_plain ns is ss : picks_all ns is ss -> Forall plain_item is.
Proof. induction 1; constructor; auto. eapply picks_plain; eauto. Qed.

Lemma kept_sizes_app s1 : forall n1 s2 n2, length s1 = length n1 ->
  kept_sizes (s1 ++ s2) (n1 ++ n2) = kept_sizes s1 n1 ++ kept_sizes s2 n2.
Proof.
  induction s1 as [|s s1 IH]; intros [|n n1] s2 n2 H; try discriminate; auto.
  simpl in H; injection H as H. destruct s; cbn [kept_sizes app]; rewrite IH by auto; reflexivity.
Qed.

Lemma kept_app {A} s1 : forall (n1 : list A) s2 n2, length s1 = length n1 ->
  kept (s1 ++ s2) (n1 ++ n2) = kept s1 n1 ++ kept s2 n2.
Proof.
  induction s1 as [|s s1 IH]; intros [|n n1] s2 n2 H; try discriminate; auto.
  simpl in H; injection H as H. destruct s; cbn [kept app]; rewrite IH by auto; reflexivity.
Qed.

Lemma kept_sizes_full k : forall ns, length ns = k -> kept_sizes (repeat Full k) ns = ns.
Proof. induction k; intros [|n ns] H; try discriminate; auto. simpl in *. f_equal. auto. Qed.

Lemma kept_full {A} k : forall ns : list A, length ns = k -> kept (repeat Full k) ns = ns.
Proof. induction k; intros [|n ns] H; try discriminate; auto. simpl in *. f_equal. auto. Qed.

Lemma source_full k : forall ix, length ix = k -> source (repeat Full k) ix = ix.
Proof. induction k; intros [|i ix] H; try discriminate; auto. simpl in *. f_equal. auto. Qed.

Lemma source_app s1 : forall n1 s2 ib ic, length s1 = length n1 -> length ib = length (kept_sizes s1 n1) ->
  source (s1 ++ s2) (ib ++ ic) = source s1 ib ++ source s2 ic.
Proof.
  induction s1 as [|s s1 IH]; intros [|n n1] s2 ib ic H Hb; try discriminate.
  - destruct ib; [reflexivity|discriminate].
  - simpl in H; injection H as H. destruct s; cbn [kept_sizes source app] in *.
    + destruct ib as [|i ib]; [discriminate|]. simpl in Hb; injection Hb as Hb. cbn [app]. f_equal. eapply IH; eauto.
    + f_equal. eapply IH; eauto.
    + destruct ib as [|i ib]; [discriminate|]. simpl in Hb; injection Hb as Hb. cbn [app]. f_equal. eapply IH; eauto.
Qed.

Lemma in_range_app_inv s1 s2 ix : in_range (s1 ++ s2) ix -> exists i1 i2, ix = i1 ++ i2 /\ in_range s1 i1 /\ in_range s2 i2.
Proof. intros H. apply Forall2_app_inv_l in H as (i1 & i2 & A & B & ->). eauto. Qed.

Lemma in_range_app s1 s2 i1 i2 : in_range s1 i1 -> in_range s2 i2 -> in_range (s1 ++ s2) (i1 ++ i2).
Proof. apply Forall2_app. Qed.

(* ---------- shape of index tuples ---------- *)

Lemma no_ell_filter l : ~ In IEll l -> filter is_ell l = [].
Proof.
  intros H. apply filter_none. intros i Hi. destruct i; auto. contradiction.
Qed.

Lemma plain_specified l : Forall plain_item l -> specified l = length l /\ ~ In IEll l /\ number_of_indexed l = length l.
Proof.
  induction 1 as [|i l Hi Hl (IH1 & IH2 & IH3)]; [repeat split; auto|].
  unfold specified, number_of_indexed in *.
  destruct i; cbn in Hi; try contradiction; cbn; rewrite ?IH1, ?IH3; repeat split; auto; intros [H|H]; try discriminate; auto.
Qed.

Lemma is_adv_fancy l : filter is_adv l = filter fancy l.
Proof. apply filter_ext. destruct a; reflexivity. Qed.

Lemma filter_fancy_all k : filter fancy (repeat all_item k) = [].
Proof. induction k; auto. Qed.

Section Torch2.
Context {V : Type}.
Implicit Types t : @tensor V.

Lemma torch_plain t l ss gap : Forall (fun n => 0 <= n) (shp t) -> (length l <= ndim t)%nat ->
  picks_all (shp t) (l ++ repeat all_item (ndim t - length l)) ss ->
  exists t', torch_apply t 0 gap l = Ok t' /\ selected t ss t'.
Proof.
  intros Hn HL HP. apply picks_all_app_inv in HP as (n1 & n2 & s1 & s2 & E & -> & P1 & P2).
  pose proof (picks_all_len _ _ _ P1) as [L1 L1']. apply picks_all_repeat_inv in P2 as [L2 ->].
  rewrite E in Hn. apply Forall_app in Hn as [Hn1 Hn2].
  destruct (torch_apply_mid l t [] n1 n2 s1 gap [] E Hn1 P1) as (t' & A & B & C).
  rewrite app_nil_r in A. cbn [torch_apply length app] in A. exists t'. split; [exact A|].
  split.
  - rewrite B, E. cbn [app]. rewrite kept_sizes_app by lia. now rewrite kept_sizes_full.
  - intros ix Hix. rewrite B in Hix. cbn [app] in Hix. apply in_range_app_inv in Hix as (i1 & i2 & -> & H1 & H2).
    specialize (C [] i1 i2 eq_refl H1). cbn [app] in C. rewrite C.
    rewrite (source_app _ n1) by (auto; apply in_range_length in H1; auto; lia).
    rewrite source_full; auto. apply in_range_length in H2. lia.
Qed.

Lemma torch_ell t l1 l2 ss : Forall (fun n => 0 <= n) (shp t) -> (length l1 + length l2 <= ndim t)%nat ->
  picks_all (shp t) (l1 ++ repeat all_item (ndim t - length l1 - length l2) ++ l2) ss ->
  exists t', torch_apply t 0 (ndim t - (length l1 + length l2)) (l1 ++ IEll :: l2) = Ok t' /\ selected t ss t'.
Proof.
  intros Hn HL HP. apply picks_all_app_inv in HP as (n1 & n23 & s1 & s23 & E & -> & P1 & P23).
  apply picks_all_app_inv in P23 as (n2 & n3 & s2 & s3 & -> & -> & P2 & P3).
  pose proof (picks_all_len _ _ _ P1) as [L1 L1']. apply picks_all_repeat_inv in P2 as [L2 ->].
  pose proof (picks_all_len _ _ _ P3) as [L3 L3'].
  rewrite E in Hn. apply Forall_app in Hn as [Hn1 Hn23]. apply Forall_app in Hn23 as [Hn2 Hn3].
  set (gap := (ndim t - (length l1 + length l2))%nat).
  assert (Eg : (ndim t - length l1 - length l2)%nat = gap) by (unfold gap; lia). rewrite Eg in *.
  destruct (torch_apply_mid l1 t [] n1 (n2 ++ n3) s1 gap (IEll :: l2) E Hn1 P1) as (t1 & A & B & C).
  cbn [length app] in A, B. rewrite A. cbn [torch_apply].
  assert (E1 : shp t1 = (kept_sizes s1 n1 ++ n2) ++ n3 ++ []) by (rewrite B, app_nil_r, app_assoc; reflexivity).
  destruct (torch_apply_mid l2 t1 _ n3 [] s3 gap [] E1 Hn3 P3) as (t2 & A2 & B2 & C2).
  rewrite app_nil_r in A2. rewrite app_length, L2 in A2. rewrite Nat.add_0_l. rewrite A2. cbn [torch_apply].
  exists t2. split; [reflexivity|]. rewrite app_nil_r in B2. split.
  - rewrite B2, E. rewrite !kept_sizes_app by (rewrite ?repeat_length; lia).
    rewrite kept_sizes_full by auto. now rewrite <- app_assoc.
  - intros ix Hix. rewrite B2 in Hix. apply in_range_app_inv in Hix as (i12 & i3 & -> & H12 & H3).
    apply in_range_app_inv in H12 as (i1 & i2 & -> & H1 & H2).
    pose proof (in_range_length _ _ H1) as LI1. pose proof (in_range_length _ _ H2) as LI2.
    specialize (C2 (i1 ++ i2) i3 []). rewrite !app_nil_r in C2. rewrite C2; auto.
    2:{ rewrite !app_length. lia. }
    rewrite <- !app_assoc.
    specialize (C [] i1 (i2 ++ source s3 i3) eq_refl H1). cbn [app] in C. rewrite C.
    rewrite (source_app s1 n1) by (auto; lia).
    rewrite (source_app (repeat Full gap) n2).
    + rewrite source_full by lia. reflexivity.
    + rewrite repeat_length; auto.
    + rewrite kept_sizes_full by auto. auto.
Qed.

(** torch accepts every index that picks something in each dimension, and selects that. *)
Lemma torch_getitem_selects t ix items ss : Forall (fun n => 0 <= n) (shp t) ->
  spreads (ndim t) ix items -> one_fancy items -> picks_all (shp t) items ss ->
  exists t', torch_getitem t ix = Ok t' /\ selected t ss t'.
Proof.
  intros Hn HS HF HP. pose proof (picks_all_plain _ _ _ HP) as HPl. unfold one_fancy in HF.
  unfold torch_getitem. destruct HS as [l He HL Hne|l1 l2 He1 He2 HL Hne|i Hi HL|].
  - apply Forall_app in HPl as [HPl _]. destruct (plain_specified _ HPl) as (S1 & S2 & _).
    rewrite no_ell_filter by auto. rewrite filter_app, filter_fancy_all, app_nil_r in HF.
    rewrite is_adv_fancy. replace (Nat.ltb 1 (length (filter fancy l))) with false by (symmetry; apply Nat.ltb_ge; lia).
    cbn [length Nat.ltb orb]. rewrite S1. replace (Nat.ltb (ndim t) (length l)) with false by (symmetry; apply Nat.ltb_ge; lia).
    cbn. apply torch_plain; auto.
  - apply Forall_app in HPl as [HP1 HP2]. apply Forall_app in HP2 as [_ HP2].
    destruct (plain_specified _ HP1) as (S1 & _ & _). destruct (plain_specified _ HP2) as (S2 & _ & _).
    rewrite !filter_app, filter_fancy_all in HF. cbn [app] in HF.
    rewrite filter_app. cbn [filter is_ell]. rewrite !no_ell_filter by auto. cbn [app length].
    rewrite is_adv_fancy, filter_app. cbn [filter fancy].
    replace (Nat.ltb 1 (length (filter fancy l1 ++ filter fancy l2))) with false by (symmetry; apply Nat.ltb_ge; lia).
    assert (ES : specified (l1 ++ IEll :: l2) = (length l1 + length l2)%nat).
    { unfold specified in *. rewrite filter_app, app_length. cbn [filter is_none is_ell negb andb]. lia. }
    rewrite ES. replace (Nat.ltb (ndim t) (length l1 + length l2)) with false by (symmetry; apply Nat.ltb_ge; lia).
    cbn. apply torch_ell; auto.
  - inversion HPl as [|? ? Hp _]; subst. destruct (plain_specified [i]) as (S1 & S2 & _); [repeat constructor; auto|].
    rewrite no_ell_filter by auto. rewrite is_adv_fancy.
    replace (Nat.ltb 1 (length (filter fancy [i]))) with false by (symmetry; apply Nat.ltb_ge; cbn; destruct (fancy i); simpl; lia).
    rewrite S1. cbn [length Nat.ltb orb]. replace (Nat.ltb (ndim t) 1) with false by (symmetry; apply Nat.ltb_ge; lia).
    apply (torch_plain t [i]); auto.
  - cbn. apply picks_all_repeat_inv in HP as [L ->].
    exists t. split; [reflexivity|]. split; [now rewrite kept_sizes_full|].
    intros ix Hix. rewrite source_full; auto. apply in_range_length in Hix. unfold ndim. lia.
Qed.

(** Conversely, whatever torch accepts picks something in each dimension. *)
Lemma torch_getitem_accepts t ix items r : Forall (fun n => 0 <= n) (shp t) ->
  spreads (ndim t) ix items -> Forall plain_item items -> torch_getitem t ix = Ok r ->
  exists ss, picks_all (shp t) items ss.
Proof.
  intros Hn HS HPl. unfold torch_getitem.
  destruct (_ || _)%bool; [discriminate|]. destruct (Nat.ltb _ _); [discriminate|].
  destruct HS as [l He HL Hne|l1 l2 He1 He2 HL Hne|i Hi HL|]; intros Hr.
  - apply Forall_app in HPl as [HPl _]. unfold ndim in *.
    rewrite <- (firstn_skipn (length l) (shp t)) in Hn. apply Forall_app in Hn as [Hn1 Hn2].
    destruct (torch_apply_mid_ok l t [] (firstn (length l) (shp t)) (skipn (length l) (shp t))
                (length (shp t) - specified l) [] r) as [ss Hss]; auto.
    { cbn [app]. now rewrite firstn_skipn. }
    { rewrite firstn_length. lia. }
    { rewrite app_nil_r. exact Hr. }
    exists (ss ++ repeat Full (length (skipn (length l) (shp t)))).
    rewrite <- (firstn_skipn (length l) (shp t)) at 1. apply picks_all_app; auto.
    rewrite <- (skipn_length (length l) (shp t)). apply picks_all_repeat.
  - apply Forall_app in HPl as [HP1 HP2]. apply Forall_app in HP2 as [_ HP2].
    destruct (plain_specified _ HP1) as (S1 & _ & _). destruct (plain_specified _ HP2) as (S2 & _ & _).
    assert (ES : specified (l1 ++ IEll :: l2) = (length l1 + length l2)%nat).
    { unfold specified in *. rewrite filter_app, app_length. cbn [filter is_none is_ell negb andb]. lia. }
    rewrite ES in Hr. unfold ndim in *.
    set (n1 := firstn (length l1) (shp t)). set (n2 := firstn (length (shp t) - length l1 - length l2) (skipn (length l1) (shp t))).
    set (n3 := skipn (length (shp t) - length l1 - length l2) (skipn (length l1) (shp t))).
    assert (E : shp t = n1 ++ n2 ++ n3) by (unfold n1, n2, n3; now rewrite !firstn_skipn).
    assert (L1 : length l1 = length n1) by (unfold n1; rewrite firstn_length; lia).
    assert (L2 : length n2 = (length (shp t) - length l1 - length l2)%nat)
      by (unfold n2; rewrite firstn_length, skipn_length; lia).
    assert (L3 : length l2 = length n3) by (unfold n3; rewrite !skipn_length; lia).
    rewrite E in Hn. apply Forall_app in Hn as [Hn1 Hn23]. apply Forall_app in Hn23 as [Hn2 Hn3].
    destruct (torch_apply_mid_ok l1 t [] n1 (n2 ++ n3) _ (IEll :: l2) r E Hn1 HP1 L1 Hr) as [s1 Hs1].
    destruct (torch_apply_mid l1 t [] n1 (n2 ++ n3) s1 (length (shp t) - (length l1 + length l2)) (IEll :: l2) E Hn1 Hs1)
      as (t1 & A & B & C).
    cbn [length app] in A, B. rewrite A in Hr. cbn [torch_apply] in Hr.
    assert (E1 : shp t1 = (kept_sizes s1 n1 ++ n2) ++ n3 ++ []) by (rewrite B, app_nil_r, app_assoc; reflexivity).
    destruct (torch_apply_mid_ok l2 t1 (kept_sizes s1 n1 ++ n2) n3 [] (length (shp t) - (length l1 + length l2)) [] r E1 Hn3 HP2 L3)
      as [s3 Hs3].
    { rewrite app_length, L2, app_nil_r. rewrite <- Hr. f_equal. lia. }
    exists (s1 ++ repeat Full (length n2) ++ s3). rewrite E. apply picks_all_app; auto. apply picks_all_app; auto.
    rewrite <- E, <- L2. apply picks_all_repeat.
  - inversion HPl as [|? ? Hp _]; subst. unfold ndim in *. destruct (shp t) as [|n ns] eqn:E; [simpl in HL; lia|].
    inversion Hn; subst.
    destruct (torch_apply_mid_ok [i] t [] [n] ns (length (n :: ns) - specified [i]) [] r) as [ss Hss]; auto.
    cbn [length]. replace (S (length ns) - 1)%nat with (length ns) by lia.
    inversion Hss as [|? ? ? ? ? ? P1 P2]; subst. inversion P2; subst. eexists. constructor; eauto. apply picks_all_repeat.
  - eexists. apply picks_all_repeat.
Qed.

End Torch2.

(** Proofs: names and metadata of x[...] (overrides.py 343-572). *)

From Coq Require Import String List ZArith Bool Lia.
From Coq Require Import ZifyBool.
From Verif Require Import Py Meta MetaSpec MetaProofs MetaLenProofs MetaSplitProofs Named NamedSpec NamedProofs NamedSelProofs.
Import ListNotations.
Open Scope Z_scope.

(* ---------- names ---------- *)

Lemma dname_eqb_eq a b : dname_eqb a b = true <-> a = b.
Proof.
  destruct a, b; simpl; split; intros H; try discriminate; try congruence; auto.
  - apply String.eqb_eq in H. congruence.
  - injection H as ->. apply String.eqb_refl.
Qed.

Lemma names_mem_In n l : names_mem n l = true <-> In n l.
Proof.
  unfold names_mem. rewrite existsb_exists. split.
  - intros (y & H & E). apply dname_eqb_eq in E. now subst.
  - intros H. exists n. split; auto. now apply dname_eqb_eq.
Qed.

Lemma names_dup_false l : names_dup l = false <-> names_distinct l.
Proof.
  unfold names_distinct. induction l as [|a l IH].
  - split; auto. intros _ [|i] j s H; discriminate.
  - cbn [names_dup]. split.
    + intros H i j s Hi Hj. destruct a as [n|].
      * apply orb_false_iff in H as [H1 H2]. pose proof (proj1 IH H2) as H3.
        assert (N : ~ In (Some n) l) by (intros X; apply names_mem_In in X; congruence).
        destruct i, j; auto; simpl in *.
        -- injection Hi as ->. apply nth_error_In in Hj. contradiction.
        -- injection Hj as ->. apply nth_error_In in Hi. contradiction.
        -- f_equal. eapply H3; eauto.
      * destruct i, j; auto; simpl in *; try discriminate. f_equal. eapply (proj1 IH H); eauto.
    + intros H. assert (H2 : names_dup l = false).
      { apply (proj2 IH). intros i j s Hi Hj. specialize (H (S i) (S j) s Hi Hj). lia. }
      destruct a as [n|]; auto. rewrite H2, orb_false_r.
      destruct (names_mem (Some n) l) eqn:E; auto. apply names_mem_In in E.
      apply In_nth_error in E as [j Hj]. specialize (H 0%nat (S j) n eq_refl Hj). lia.
Qed.

Lemma kept_In {A} ss : forall (l : list A) a, In a (kept ss l) -> In a l.
Proof.
  induction ss as [|s ss IH]; intros [|x l] a H; try destruct s; simpl in *; try contradiction; auto.
  - destruct H; auto.
  - destruct H; auto.
Qed.

Lemma kept_dup ss : forall l, names_dup l = false -> names_dup (kept ss l) = false.
Proof.
  induction ss as [|s ss IH]; intros [|x l] H; try destruct s; auto.
  all: assert (H2 : names_dup l = false) by (cbn in H; destruct x; [apply orb_false_iff in H as [_ H]|]; exact H).
  all: cbn [kept]; auto.
  all: destruct x as [n|]; cbn [names_dup] in *; auto.
  all: rewrite (IH _ H2), orb_false_r; apply orb_false_iff in H as [H _].
  all: destruct (names_mem (Some n) (kept ss l)) eqn:E; auto.
  all: apply names_mem_In, kept_In, names_mem_In in E; congruence.
Qed.

Lemma kept_length {A} ss : forall (l : list A) ns, length l = length ns ->
  length (kept ss l) = length (kept_sizes ss ns).
Proof.
  induction ss as [|s ss IH]; intros [|x l] [|n ns] H; try destruct s; try discriminate; auto.
  all: simpl in *; injection H as H; rewrite (IH l ns H); reflexivity.
Qed.

Lemma names_index_ok l i s : nth_error l i = Some (Some s) -> names_distinct l -> names_index (Some s) l = Ok i.
Proof.
  intros H D. revert i H D. induction l as [|a l IH]; intros [|i] H D; try discriminate; simpl in *.
  - injection H as ->. simpl. now rewrite String.eqb_refl.
  - destruct (dname_eqb a (Some s)) eqn:E.
    + apply dname_eqb_eq in E. subst. specialize (D 0%nat (S i) s eq_refl H). lia.
    + rewrite (IH i); auto. intros i' j' s' Hi Hj. specialize (D (S i') (S j') s' Hi Hj). lia.
Qed.

Lemma names_index_sound l i s : names_index (Some s) l = Ok i -> nth_error l i = Some (Some s).
Proof.
  revert i. induction l as [|a l IH]; intros i; simpl; [discriminate|].
  destruct (dname_eqb a (Some s)) eqn:E.
  - intros [= <-]. apply dname_eqb_eq in E. now subst.
  - destruct (names_index (Some s) l); simpl; [|discriminate]. intros [= <-]. simpl. auto.
Qed.

(* ---------- determine_dims ---------- *)

Lemma picks_describe nms d n i s name : picks n i s -> nth_error nms d = Some name ->
  describe_item nms d i = Ok (if is_full_slice i then [] else [d], kept [s] [name]).
Proof.
  intros H E. unfold describe_item, name_at. rewrite E. destruct H; reflexivity.
Qed.

Lemma nat_mem_app d a b : nat_mem d (a ++ b) = nat_mem d a || nat_mem d b.
Proof. apply existsb_app. Qed.

Lemma describe_items_ok items : forall pre mid post ns ss,
  length mid = length ns -> picks_all ns items ss ->
  exists aff, describe_items (pre ++ mid ++ post) (length pre) items = Ok (aff, kept ss mid) /\
    forall d, nat_mem d aff = Nat.leb (length pre) d &&
                match nth_error items (d - length pre) with Some i => negb (is_full_slice i) | None => false end.
Proof.
  induction items as [|i items IH]; intros pre mid post ns ss HL HP.
  - inversion HP; subst. destruct mid; [|discriminate]. exists []. split; [reflexivity|].
    intros d. destruct (d - length pre)%nat; simpl; now rewrite andb_false_r.
  - inversion HP as [|n ? s ns' ? ss' Hs HP']; subst. destruct mid as [|name mid]; [discriminate|].
    simpl in HL; injection HL as HL. cbn [describe_items].
    rewrite (picks_describe _ _ _ _ _ name Hs).
    2:{ rewrite nth_error_app2, Nat.sub_diag by lia. reflexivity. }
    cbn [bind].
    destruct (IH (pre ++ [name]) mid post ns' ss' HL HP') as (aff & A & B).
    rewrite app_length, Nat.add_1_r in A, B. rewrite <- app_assoc in A. cbn [app length] in A, B.
    cbn [app]. rewrite A. cbn [bind].
    eexists. split; [f_equal; f_equal; destruct s; reflexivity|].
    intros d. rewrite nat_mem_app, B.
    destruct (Nat.leb (length pre) d) eqn:E.
    + apply Nat.leb_le in E. destruct (Nat.eq_dec d (length pre)) as [->|N].
      * rewrite Nat.sub_diag. cbn [nth_error]. replace (Nat.leb (S (length pre)) (length pre)) with false by (symmetry; apply Nat.leb_gt; lia).
        cbn [andb]. rewrite orb_false_r. destruct (is_full_slice i); cbn; [reflexivity|]. now rewrite Nat.eqb_refl.
      * replace (Nat.leb (S (length pre)) d) with true by (symmetry; apply Nat.leb_le; lia).
        replace (d - length pre)%nat with (S (d - S (length pre))) by lia. cbn [nth_error andb].
        destruct (is_full_slice i); cbn [nat_mem existsb]; [reflexivity|].
        replace (Nat.eqb d (length pre)) with false by (symmetry; apply Nat.eqb_neq; auto). reflexivity.
    + apply Nat.leb_gt in E. replace (Nat.leb (S (length pre)) d) with false by (symmetry; apply Nat.leb_gt; lia).
      destruct (is_full_slice i); cbn [nat_mem existsb andb]; [reflexivity|].
      replace (Nat.eqb d (length pre)) with false by (symmetry; apply Nat.eqb_neq; lia). reflexivity.
Qed.

Lemma find_ell_none l : ~ In IEll l -> find_ell l = None.
Proof.
  induction l as [|i l IH]; intros H; auto. cbn [find_ell].
  destruct i; cbn [is_ell]; try (rewrite IH; [reflexivity|intros X; apply H; right; exact X]).
  exfalso; apply H; left; reflexivity.
Qed.

Lemma find_ell_here l1 l2 : ~ In IEll l1 -> find_ell (l1 ++ IEll :: l2) = Some (length l1).
Proof.
  induction l1 as [|i l IH]; intros H; auto. cbn [find_ell app].
  destruct i; cbn [is_ell]; try (rewrite IH; [reflexivity|intros X; apply H; right; exact X]).
  exfalso; apply H; left; reflexivity.
Qed.

Lemma number_of_indexed_plain l : Forall plain_item l -> number_of_indexed l = length l.
Proof. apply plain_specified. Qed.

(** The description of an index that has one item per dimension. *)
Definition described (nms : list dname) (items : list item) (ss : list sel) (ix : index) : Prop :=
  exists items' aff multi, determine_dims nms ix = Ok (items', aff, kept ss nms, multi) /\
    forall d, (d < length nms)%nat ->
      nat_mem d aff = negb (is_full_slice (nth d items INone)) /\
      (nat_mem d aff = true -> (if multi then nth d items' INone else nth 0 items' INone) = nth d items INone).

Lemma nth_error_nth_match items d : (d < length items)%nat ->
  match nth_error items d with Some i => negb (is_full_slice i) | None => false end = negb (is_full_slice (nth d items INone)).
Proof. intros H. rewrite (nth_error_nth' _ INone) by auto. reflexivity. Qed.

Lemma determine_spreads nms ns ix items ss : length nms = length ns ->
  spreads (length nms) ix items -> picks_all ns items ss -> described nms items ss ix.
Proof.
  intros HL HS HP. pose proof (picks_all_plain _ _ _ HP) as HPl. pose proof (picks_all_len _ _ _ HP) as [LI LS].
  unfold described. destruct HS as [l He HL' Hne|l1 l2 He1 He2 HL' Hne|i Hi HL'|].
  - apply picks_all_app_inv in HP as (n1 & n2 & s1 & s2 & -> & -> & P1 & P2).
    pose proof (picks_all_len _ _ _ P1) as [L1 L1']. apply picks_all_repeat_inv in P2 as [L2 ->].
    apply Forall_app in HPl as [HPl _].
    set (mid := firstn (length l) nms). set (post := skipn (length l) nms).
    assert (E : nms = mid ++ post) by (unfold mid, post; now rewrite firstn_skipn).
    assert (Lm : length mid = length l) by (unfold mid; rewrite firstn_length; lia).
    destruct (describe_items_ok l [] mid post n1 s1) as (aff & A & B); [lia|auto|].
    exists l, aff, true. split.
    + cbn [determine_dims]. unfold replace_ellipsis. rewrite find_ell_none by auto.
      cbn [app length] in A. rewrite <- E in A. rewrite A. cbn [bind].
      rewrite number_of_indexed_plain by auto.
      destruct l as [|i0 l]; [congruence|]. f_equal. f_equal. f_equal.
      replace (length nms - (length nms - length (i0 :: l)))%nat with (length (i0 :: l)) by lia.
      fold post.
      assert (EK : kept (s1 ++ repeat Full (length nms - length (i0 :: l))) (mid ++ post) = kept s1 mid ++ post).
      { rewrite kept_app by lia. f_equal. apply kept_full. unfold post. rewrite skipn_length. lia. }
      rewrite <- E in EK. now rewrite EK.
    + intros d Hd. specialize (B d). cbn [length Nat.leb andb] in B. rewrite Nat.sub_0_r in B.
      destruct (Nat.lt_ge_cases d (length l)) as [Hl|Hl].
      * rewrite nth_error_nth_match in B by auto. rewrite app_nth1 by auto. split; auto.
      * rewrite (proj2 (nth_error_None l d)) in B by auto. rewrite B.
        rewrite app_nth2 by auto. split; [|congruence].
        rewrite (nth_indep _ INone all_item) by (rewrite repeat_length; lia). now rewrite nth_repeat.
  - apply Forall_app in HPl as [HPl1 HPl2]. apply Forall_app in HPl2 as [_ HPl2].
    set (items := l1 ++ repeat all_item (length nms - length l1 - length l2) ++ l2) in *.
    destruct (describe_items_ok items [] nms [] ns ss) as (aff & A & B); [lia|auto|].
    rewrite app_nil_r in A. cbn [app length] in A.
    assert (ER : replace_ellipsis (l1 ++ IEll :: l2) (length nms) = items).
    { unfold replace_ellipsis. rewrite find_ell_here by auto.
      assert (EN : number_of_indexed (l1 ++ IEll :: l2) = (length l1 + S (length l2))%nat).
      { unfold number_of_indexed. rewrite filter_app, app_length. cbn [filter is_none negb length].
        rewrite <- (number_of_indexed_plain l1), <- (number_of_indexed_plain l2) by auto. reflexivity. }
      rewrite EN. rewrite firstn_app, Nat.sub_diag, firstn_all, firstn_O, app_nil_r.
      rewrite skipn_app. rewrite (skipn_all2 l1) by lia. replace (S (length l1) - length l1)%nat with 1%nat by lia.
      cbn [skipn app]. unfold items, full_slice, all_item. f_equal. f_equal. f_equal. lia. }
    exists items, aff, true. split.
    + cbn [determine_dims]. rewrite ER, A. cbn [bind].
      assert (EN : number_of_indexed items = length nms).
      { rewrite number_of_indexed_plain by (eapply picks_all_plain; eauto). lia. }
      rewrite EN, Nat.sub_diag, Nat.sub_0_r, skipn_all, app_nil_r.
      destruct items as [|i0 l0] eqn:EI; [|reflexivity].
      exfalso. simpl in LI. unfold items in EI. destruct l1; [|discriminate]. destruct l2; [|destruct (repeat _ _); discriminate].
      destruct Hne as [Hne|Hne]; [now apply Hne|]. rewrite HL in Hne. lia.
    + intros d Hd. specialize (B d). cbn [length Nat.leb andb] in B. rewrite Nat.sub_0_r in B.
      rewrite nth_error_nth_match in B by lia. split; auto.
  - inversion HP as [|n ? s ns' ? ss' Hs HP']; subst. apply picks_all_repeat_inv in HP' as [L ->].
    destruct nms as [|nm nms]; [simpl in HL'; lia|]. simpl in HL. injection HL as HL.
    exists [i], (if is_full_slice i then [] else [0%nat]), false.
    pose proof (picks_full_iff _ _ _ Hs) as HF.
    split.
    + assert (EK : kept (repeat Full (length (nm :: nms) - 1)) nms = nms) by (apply kept_full; simpl; lia).
      destruct Hs; cbn [determine_dims is_full_slice kept tl]; rewrite ?EK; try reflexivity.
    + intros [|d] Hd.
      * cbn [nth]. destruct (is_full_slice i); cbn; auto.
      * cbn [nth]. rewrite (nth_indep _ INone all_item) by (rewrite repeat_length; simpl in *; lia). rewrite nth_repeat.
        destruct (is_full_slice i); cbn; split; auto; discriminate.
  - apply picks_all_repeat_inv in HP as [L ->]. exists [IEll], [], false. split.
    + cbn [determine_dims]. now rewrite kept_full by lia.
    + intros d Hd. rewrite (nth_indep _ INone all_item) by (rewrite repeat_length; auto). rewrite nth_repeat. cbn. split; auto; discriminate.
Qed.

(* ---------- getitem ---------- *)

Definition bix (i : item) : bidx := if is_full_slice i then BNone else to_bidx i.
Definition lix (i : item) : lidx := if is_full_slice i then LNone else to_lidx i.

Section Getitem.
Context {V : Type}.
Implicit Types x y : @stensor V.

Lemma selected_ndim (t t' : @tensor V) ss : selected t ss t' -> ndim t' = length (kept_sizes ss (shp t)).
Proof. intros [H _]. unfold ndim. now rewrite H. Qed.

(** x[...] puts together the torch result, the kept names and the indexed metadata. *)
Lemma getitem_eq x bd ld ix items ss :
  length (names x) = length (shp (tn x)) -> names_distinct (names x) -> Forall (fun n => 0 <= n) (shp (tn x)) ->
  nth_error (names x) bd = Some (Some "B"%string) -> nth_error (names x) ld = Some (Some "L"%string) ->
  spreads (ndim (tn x)) ix items -> one_fancy items -> picks_all (shp (tn x)) items ss ->
  exists t', selected (tn x) ss t' /\ torch_getitem (tn x) ix = Ok t' /\
    getitem x ix = do m' <- index_pair (smeta x) (bix (nth bd items INone)) (lix (nth ld items INone));
                   Ok (mkSt t' (kept ss (names x)) m').
Proof.
  intros HR HD Hn HB HL HS HF HP.
  destruct (torch_getitem_selects _ _ _ _ Hn HS HF HP) as (t' & A & B).
  exists t'. split; [exact B|]. split; [exact A|].
  unfold ndim in HS. rewrite <- HR in HS.
  destruct (determine_spreads _ _ _ _ _ HR HS HP) as (items' & aff & multi & D & Q).
  assert (Hbd : (bd < length (names x))%nat) by (apply nth_error_Some; congruence).
  assert (Hld : (ld < length (names x))%nat) by (apply nth_error_Some; congruence).
  destruct (Q bd Hbd) as [Qb1 Qb2]. destruct (Q ld Hld) as [Ql1 Ql2].
  unfold getitem. rewrite A. cbn [bind]. rewrite D. cbn [bind].
  unfold BATCH, LENGTH. rewrite (names_index_ok _ _ _ HB HD), (names_index_ok _ _ _ HL HD). cbn [bind].
  assert (ER : refine_names (ndim t') (kept ss (names x)) = Ok (kept ss (names x))).
  { unfold refine_names. rewrite (selected_ndim _ _ _ B), <- (kept_length ss (names x)) by auto.
    rewrite Nat.eqb_refl. rewrite kept_dup; [reflexivity|]. now apply names_dup_false. }
  rewrite ER. cbn [bind]. unfold bix, lix.
  destruct (nat_mem bd aff) eqn:Eb; destruct (nat_mem ld aff) eqn:El; cbn [orb negb].
  - rewrite (Qb2 eq_refl), (Ql2 eq_refl). symmetry in Qb1, Ql1. apply negb_true_iff in Qb1, Ql1. now rewrite Qb1, Ql1.
  - rewrite (Qb2 eq_refl). symmetry in Qb1, Ql1. apply negb_true_iff in Qb1. apply negb_false_iff in Ql1. now rewrite Qb1, Ql1.
  - rewrite (Ql2 eq_refl). symmetry in Qb1, Ql1. apply negb_true_iff in Ql1. apply negb_false_iff in Qb1. now rewrite Qb1, Ql1.
  - symmetry in Qb1, Ql1. apply negb_false_iff in Ql1. apply negb_false_iff in Qb1. rewrite Qb1, Ql1. reflexivity.
Qed.

End Getitem.

(** Further consequences: which selected time steps are real, and misplaced names. *)

From Coq Require Import String List ZArith Bool Lia.
From Coq Require Import ZifyBool.
From Verif Require Import Py Meta MetaSpec MetaProofs MetaLenProofs Named NamedSpec NamedProofs NamedSelProofs NamedGetProofs NamedOpsProofs NamedShapeProofs.
Import ListNotations.
Open Scope Z_scope.

Lemma ascending_tail a l : ascending (a :: l) -> ascending l.
Proof. intros H i j x y Hi Hj Hl. apply (H (S i) (S j) x y); auto. lia. Qed.

Lemma ascending_head a l q : ascending (a :: l) -> In q l -> a <= q.
Proof. intros H Hq. apply In_nth_error in Hq as (j & Hj). apply (H 0%nat (S j) a q); auto. lia. Qed.

Lemma filter_none {A} (f : A -> bool) l : (forall a, In a l -> f a = false) -> filter f l = [].
Proof. induction l as [|a l IH]; intros H; cbn; auto. rewrite (H a (or_introl eq_refl)). apply IH. intros; apply H; now right. Qed.

(** In time order the real steps come first. *)
Lemma real_prefix qs n : ascending qs ->
  forall j q, nth_error qs j = Some q -> (Z.of_nat j < count_real qs n <-> q < n).
Proof.
  unfold count_real, zlen. induction qs as [|a qs IH]; intros HA j q Hj; [destruct j; discriminate|].
  destruct (a <? n) eqn:E; cbn [filter]; rewrite E; cbn [length].
  - destruct j as [|j]; cbn [nth_error] in Hj.
    + injection Hj as <-. lia.
    + specialize (IH (ascending_tail _ _ HA) j q Hj). lia.
  - rewrite filter_none by (intros b Hb; pose proof (ascending_head _ _ _ HA Hb); lia). cbn [length].
    destruct j as [|j]; cbn [nth_error] in Hj; [injection Hj as <-; lia|].
    apply nth_error_In in Hj. pose proof (ascending_head _ _ _ HA Hj). lia.
Qed.

(** The positions of a slice with a positive step are in time order. *)
Lemma ascending_filter (f : Z -> bool) l : ascending l -> ascending (filter f l).
Proof.
  induction l as [|a l IH]; intros H; cbn; auto. specialize (IH (ascending_tail _ _ H)).
  destruct (f a); auto. intros [|i] [|j] x y Hi Hj Hl; cbn [nth_error] in *; try lia.
  - assert (x = a) by congruence. assert (y = a) by congruence. lia.
  - assert (x = a) by congruence. subst x. apply (ascending_head _ l); auto. apply nth_error_In in Hj. now apply filter_In in Hj.
  - apply (IH i j x y); auto. lia.
Qed.

Lemma ascending_positions n : ascending (positions n).
Proof.
  unfold positions. intros i j a b Hi Hj Hl. rewrite nth_error_map in Hi, Hj.
  destruct (nth_error (seq 0 (Z.to_nat n)) i) as [u|] eqn:Eu; [|discriminate].
  destruct (nth_error (seq 0 (Z.to_nat n)) j) as [v|] eqn:Ev; [|discriminate].
  assert (i < length (seq 0 (Z.to_nat n)))%nat by (apply nth_error_Some; congruence).
  assert (j < length (seq 0 (Z.to_nat n)))%nat by (apply nth_error_Some; congruence).
  rewrite seq_length in *.
  apply (nth_error_nth _ _ 0%nat) in Eu. apply (nth_error_nth _ _ 0%nat) in Ev. rewrite seq_nth in Eu, Ev by lia.
  cbn in Hi, Hj. injection Hi as <-. injection Hj as <-. lia.
Qed.

Lemma ascending_slice n a b k : ascending (slice_positions n a b k).
Proof. apply ascending_filter, ascending_positions. Qed.

Lemma insert_misplaced {A} (k : nat) (n : A) (l : list (option A)) : (0 < k)%nat -> nth_error l (Nat.pred k) = Some (Some n) ->
  insert_nth (Nat.pred k) None l <> insert_nth k None l.
Proof.
  intros Hk E H. destruct k as [|j]; [lia|]. cbn [Nat.pred] in *. clear Hk.
  apply nth_error_split in E as (l1 & l2 & -> & <-). unfold insert_nth in H.
  assert (E1 : firstn (length l1) (l1 ++ Some n :: l2) = l1).
  { rewrite firstn_app, firstn_all, Nat.sub_diag. apply app_nil_r. }
  assert (E2 : skipn (length l1) (l1 ++ Some n :: l2) = Some n :: l2).
  { rewrite skipn_app, skipn_all, Nat.sub_diag. reflexivity. }
  assert (E3 : firstn (S (length l1)) (l1 ++ Some n :: l2) = l1 ++ [Some n]).
  { rewrite firstn_app, firstn_all2 by lia. replace (S (length l1) - length l1)%nat with 1%nat by lia. reflexivity. }
  rewrite E1, E2, E3 in H. rewrite <- app_assoc in H. apply app_inv_head in H. cbn in H. discriminate.
Qed.

Section More.
Context {V : Type}.
Implicit Types x y : @stensor V.

Lemma unsqueeze_places x k : length (names x) = ndim (tn x) -> names_distinct (names x) -> (k <= ndim (tn x))%nat ->
  exists y, unsqueeze x (Z.of_nat k) = Ok y /\ new_dim k (tn x) (tn y) /\ smeta y = smeta x /\
    names y = firstn k (names x) ++ None :: skipn k (names x).
Proof.
  intros HR HD Hk. destruct (unsqueeze_eq x (Z.of_nat k) k HR HD) as [E HN]; [split; [lia|now left]|].
  replace (Z.of_nat k <? 0) with false in E by lia. eexists. split; [exact E|]. cbn. auto.
Qed.

Lemma unsqueeze_misplaces x d k n : length (names x) = ndim (tn x) -> names_distinct (names x) ->
  denotes (S (ndim (tn x))) d k -> d < 0 -> (0 < k)%nat -> nth_error (names x) (Nat.pred k) = Some (Some n) ->
  exists y, unsqueeze x d = Ok y /\ new_dim k (tn x) (tn y) /\ names y <> firstn k (names x) ++ None :: skipn k (names x).
Proof.
  intros HR HD HDn Hd Hk Hn. destruct (unsqueeze_eq x d k HR HD HDn) as [E HN].
  replace (d <? 0) with true in E by lia. eexists. split; [exact E|]. split; [exact HN|]. cbn [names].
  now apply (insert_misplaced k n).
Qed.

Lemma torch_transpose_wrong x d0 d1 a b : length (names x) = ndim (tn x) -> names_distinct (names x) ->
  denotes (ndim (tn x)) d0 a -> denotes (ndim (tn x)) d1 b -> nth a (names x) None <> nth b (names x) None ->
  exists y, torch_transpose x d0 d1 = Ok y /\ permuted (exchange (ndim (tn x)) a b) (tn x) (tn y) /\
    names y <> map (fun d => nth d (names x) None) (exchange (ndim (tn x)) a b).
Proof.
  intros HR HD H0 H1 Hne. destruct (torch_transpose_names x d0 d1 a b HR HD H0 H1) as (y & E & En & _ & HP).
  exists y. split; auto. split; auto. rewrite En, <- HR. intros H. symmetry in H. revert H.
  apply exchange_wrong; auto; rewrite HR; [apply H0|apply H1].
Qed.

Lemma select_in_step x bd ld c rs T d k n i p : stream_ok x bd ld c rs T ->
  denotes (ndim (tn x)) d k -> nth_error (shp (tn x)) k = Some n -> picks n (IInt i) (Drop p) ->
  (k = ld -> is_max_len rs T \/ (rs <> [] /\ 0 <= i)) ->
  exists y, select x d (IInt i) = Ok y /\ in_step x bd ld c rs false (dim_sel (ndim (tn x)) k (Drop p)) y.
Proof.
  intros HO HD En HP HL. rewrite (select_eq x d k (IInt i) HD).
  destruct HD as [Hk _].
  assert (HS : spreads (ndim (tn x)) (Tuple (repeat all_item k ++ [IInt i]))
                 ((repeat all_item k ++ [IInt i]) ++ repeat all_item (ndim (tn x) - length (repeat all_item k ++ [IInt i])))).
  { constructor.
    - intros H. apply in_app_or in H as [H|[H|[]]]; [apply repeat_spec in H; discriminate|discriminate].
    - rewrite app_length, repeat_length. cbn. lia.
    - intros H. apply app_eq_nil in H as [_ H]. discriminate. }
  set (items := (repeat all_item k ++ [IInt i]) ++ repeat all_item (ndim (tn x) - length (repeat all_item k ++ [IInt i]))) in *.
  assert (EI : items = repeat all_item k ++ IInt i :: repeat all_item (ndim (tn x) - k - 1)).
  { unfold items. rewrite <- app_assoc, app_length, repeat_length. cbn. do 3 f_equal. lia. }
  assert (HF : one_fancy items).
  { unfold one_fancy. rewrite EI, filter_app. cbn [filter fancy].
    assert (G : forall m, filter fancy (repeat all_item m) = []).
    { intros m. apply filter_none. intros a Ha. apply repeat_spec in Ha. now subst a. }
    rewrite !G. cbn. lia. }
  assert (FN : fancy (nth ld items INone) = false).
  { assert (G : forall j, In j items -> fancy j = false).
    { intros j Hj. rewrite EI in Hj. apply in_app_or in Hj as [Hj|[<-|Hj]]; [apply repeat_spec in Hj; now subst j|reflexivity|].
      apply repeat_spec in Hj. now subst j. }
    destruct (nth_in_or_default ld items INone) as [Hj|Hj]; [now apply G|]. rewrite Hj. reflexivity. }
  rewrite <- FN. apply (getitem_in_step x bd ld c rs T _ items); auto.
  - rewrite EI. unfold dim_sel. unfold ndim in *.
    apply nth_error_split in En as (l1 & l2 & E & E1). rewrite E, <- E1, app_length. cbn [length].
    replace (length l1 + S (length l2) - length l1 - 1)%nat with (length l2) by lia.
    clear -HP. induction l1 as [|a l1 IH]; cbn [length repeat app].
    + constructor; auto. induction l2; cbn [length repeat]; constructor; auto. constructor.
    + constructor; auto. constructor.
  - destruct (Nat.eq_dec ld k) as [->|Hne].
    + right. rewrite EI, app_nth2, repeat_length, Nat.sub_diag by (rewrite repeat_length; lia). cbn [nth].
      assert (Hbk : bd <> k).
      { intros ->. pose proof (so_bname _ _ _ _ _ _ HO). pose proof (so_lname _ _ _ _ _ _ HO). congruence. }
      rewrite (nth_dim_sel (ndim (tn x)) k (Drop p) bd Hk).
      destruct (Nat.eqb_spec bd k) as [|_]; [contradiction|]. cbn [sel_rows].
      destruct (HL eq_refl) as [Hm|[Hr Hi]].
      * exists T. split; auto. cbn. now right.
      * destruct (max_length_exists c rs Hr) as (mx & _ & Hmx). exists mx. split; auto. cbn. now left.
    + left. rewrite (nth_dim_sel (ndim (tn x)) k (Drop p) ld Hk). destruct (Nat.eqb_spec ld k); congruence.
Qed.

End More.

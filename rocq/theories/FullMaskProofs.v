(** Proofs: indexing with a boolean tensor of several dimensions. *)

From Coq Require Import String List ZArith Bool Lia.
From Coq Require Import ZifyBool.
From Verif Require Import Py Meta MetaSpec MetaProofs MetaLenProofs MetaSplitProofs MetaBatchProofs Named NamedSpec NamedProofs
  NamedSelProofs NamedIndexProofs NamedMetaProofs NamedGetProofs NamedShapeProofs Gather FullIndex FullIndexSpec FullIndexProofs FullRankProofs.
Import ListNotations.
Open Scope Z_scope.

(* ---------- positions ---------- *)

Lemma dim_positions_In n i : In i (dim_positions n) <-> 0 <= i < n.
Proof.
  unfold dim_positions. rewrite in_map_iff. split.
  - intros (k & <- & H). apply in_seq in H. lia.
  - intros H. exists (Z.to_nat i). split; [lia|]. apply in_seq. lia.
Qed.

Lemma all_positions_In s p : In p (all_positions s) <-> in_range s p.
Proof.
  revert p. induction s as [|n s IH]; intros p; cbn [all_positions].
  - split; [intros [<-|[]]; constructor|intros H; inversion H; left; reflexivity].
  - rewrite in_flat_map. split.
    + intros (i & Hi & H). apply in_map_iff in H as (q & <- & Hq). apply dim_positions_In in Hi. constructor; [auto|]. now apply IH.
    + intros H. inversion H as [|? i ? q Hi Hq]; subst. exists i. split; [now apply dim_positions_In|]. apply in_map. now apply IH.
Qed.

Inductive sorted_before : list (list Z) -> Prop :=
| SB_nil : sorted_before []
| SB_cons p l : (forall q, In q l -> before p q) -> sorted_before l -> sorted_before (p :: l).

Lemma sorted_filter f l : sorted_before l -> sorted_before (filter f l).
Proof.
  induction 1 as [|p l H S IH]; [constructor|]. cbn [filter]. destruct (f p); [|exact IH].
  constructor; auto. intros q Hq. apply filter_In in Hq as [Hq _]. auto.
Qed.

Lemma sorted_map_cons a l : sorted_before l -> sorted_before (map (cons a) l).
Proof.
  induction 1 as [|p l H S IH]; [constructor|]. cbn [map]. constructor; auto.
  intros q Hq. apply in_map_iff in Hq as (r & <- & Hr). apply Before_later. auto.
Qed.

Lemma sorted_app a b : sorted_before a -> sorted_before b -> (forall p q, In p a -> In q b -> before p q) -> sorted_before (a ++ b).
Proof.
  intros SA SB H. induction SA as [|p l Hp SA IH]; [exact SB|]. cbn [app]. constructor.
  - intros q Hq. apply in_app_or in Hq as [Hq|Hq]; [auto|]. apply H; [left|]; auto.
  - apply IH. intros; apply H; [right|]; auto.
Qed.

Lemma all_positions_sorted s : sorted_before (all_positions s).
Proof.
  induction s as [|n s IH]; [repeat constructor; intros q []|]. cbn [all_positions].
  assert (L : forall p q, In p (all_positions s) -> In q (all_positions s) -> length p = length q).
  { intros p q Hp Hq. apply all_positions_In, in_range_length in Hp, Hq. congruence. }
  unfold dim_positions. generalize (Z.to_nat n) as k. intros k.
  enough (G : forall a, sorted_before (flat_map (fun i => map (cons i) (all_positions s)) (map Z.of_nat (seq a k)))) by apply (G O).
  induction k as [|k IHk]; intros a; [constructor|]. cbn [seq map flat_map]. apply sorted_app.
  - now apply sorted_map_cons.
  - apply IHk.
  - intros p q Hp Hq. apply in_map_iff in Hp as (p' & <- & Hp). apply in_flat_map in Hq as (j & Hj & Hq).
    apply in_map_iff in Hq as (q' & <- & Hq). apply in_map_iff in Hj as (b & <- & Hb). apply in_seq in Hb.
    apply Before_here; [lia|]. auto.
Qed.

Lemma sorted_nth l : sorted_before l -> forall i j p q, nth_error l i = Some p -> nth_error l j = Some q -> (i < j)%nat -> before p q.
Proof.
  induction 1 as [|p0 l Hp S IH]; intros i j p q Hi Hj Hl; [destruct i; discriminate|].
  destruct i as [|i], j as [|j]; try lia.
  - cbn in Hi, Hj. injection Hi as <-. apply nth_error_In in Hj. auto.
  - cbn in Hi, Hj. eapply IH; eauto. lia.
Qed.

Lemma true_positions_marks m : marks m (true_positions m).
Proof.
  split.
  - intros i j p q. apply sorted_nth. apply sorted_filter, all_positions_sorted.
  - intros p. unfold true_positions. rewrite filter_In, all_positions_In. reflexivity.
Qed.

(* ---------- any_along_dims ---------- *)

(** Position [p] without the coordinates of the dimensions [ds]. *)
Definition drop_coords (ds : list nat) (p : list Z) : list Z := fold_right (fun d acc => remove_nth d acc) p ds.

Lemma insert_remove_nth (d : nat) (p : list Z) : (d < length p)%nat -> insert_nth d (nth d p 0) (remove_nth d p) = p.
Proof.
  intros H. unfold insert_nth, remove_nth.
  rewrite firstn_app, firstn_firstn, Nat.min_id, firstn_length_le, Nat.sub_diag by lia. cbn [firstn]. rewrite app_nil_r.
  rewrite skipn_app, skipn_all2 by (rewrite firstn_length; lia). rewrite firstn_length_le, Nat.sub_diag by lia. cbn [skipn app].
  rewrite <- (firstn_skipn d p) at 4. f_equal.
  clear -H. revert p H. induction d as [|d IH]; intros [|a p] H; cbn in *; try lia; auto. apply IH. lia.
Qed.

Lemma remove_insert_nth (d : nat) a (p : list Z) : (d <= length p)%nat -> remove_nth d (insert_nth d a p) = p /\ nth d (insert_nth d a p) 0 = a.
Proof.
  intros H. assert (L : length (firstn d p) = d) by (rewrite firstn_length; lia).
  unfold insert_nth. split.
  - pose proof (remove_nth_app (firstn d p) a (skipn d p)) as E. rewrite L, firstn_skipn in E. exact E.
  - pose proof (nth_app_here (firstn d p) a (skipn d p) 0) as E. rewrite L in E. exact E.
Qed.

Lemma in_range_remove s p d : in_range s p -> in_range (remove_nth d s) (remove_nth d p).
Proof.
  intros H. revert d. induction H as [|n i s p Hi H IH]; intros d.
  - unfold remove_nth. destruct d; constructor.
  - destruct d as [|d]; [exact H|]. unfold remove_nth in *. cbn [firstn skipn app]. constructor; [auto|apply IH].
Qed.

Lemma in_range_insert s p d i : (d < length s)%nat -> in_range (remove_nth d s) p -> 0 <= i < nth d s 0 -> in_range s (insert_nth d i p).
Proof.
  revert s p. induction d as [|d IH]; intros [|n s] p Hd H Hi; cbn [length] in Hd; try lia.
  - unfold insert_nth. cbn in *. constructor; auto.
  - unfold remove_nth in H. cbn [firstn skipn app] in H. inversion H as [|? j ? q Hj Hq]; subst.
    unfold insert_nth. cbn [firstn skipn app]. constructor; [auto|]. apply (IH s q); [lia|exact Hq|exact Hi].
Qed.

Lemma any_dim_true m d q : (d < ndim m)%nat -> in_range (shp (any_dim m d)) q ->
  (at_ (any_dim m d) q = true <-> exists p, in_range (shp m) p /\ at_ m p = true /\ remove_nth d p = q).
Proof.
  intros Hd Hq. cbn [any_dim at_ shp] in *. rewrite existsb_exists.
  assert (Lq : length q = (ndim m - 1)%nat).
  { rewrite (in_range_length _ _ Hq). unfold remove_nth, ndim in *. rewrite app_length, firstn_length, skipn_length. lia. }
  split.
  - intros (i & Hi & E). apply dim_positions_In in Hi. exists (insert_nth d i q). split; [apply in_range_insert; auto|].
    split; [exact E|]. apply remove_insert_nth. lia.
  - intros (p & Hp & E & <-). pose proof (in_range_length _ _ Hp) as Lp. fold (ndim m) in Lp. exists (nth d p 0). split.
    + apply dim_positions_In. clear -Hp Hd Lp. unfold size. unfold ndim in *. revert d Hd. induction Hp as [|n i s p Hi Hp IH]; intros d Hd; cbn [length] in *; [lia|].
      destruct d as [|d]; [exact Hi|]. cbn [nth]. apply IH; [|lia]. simpl in Lp. lia.
    + rewrite insert_remove_nth by lia. exact E.
Qed.

Fixpoint descends (n : nat) (ds : list nat) : Prop :=
  match ds with
  | [] => True
  | d :: r => descends n r /\ (d + length r < n)%nat
  end.

Lemma any_dims_true m ds : descends (ndim m) ds -> ndim (any_along_dims m ds) = (ndim m - length ds)%nat /\
  (length ds <= ndim m)%nat /\
  (forall q, in_range (shp (any_along_dims m ds)) q ->
     (at_ (any_along_dims m ds) q = true <-> exists p, in_range (shp m) p /\ at_ m p = true /\ drop_coords ds p = q)).
Proof.
  induction ds as [|d ds IH]; intros HD.
  - cbn. split; [lia|]. split; [lia|]. intros q Hq. split; [eauto|]. intros (p & _ & E & <-). exact E.
  - cbn [descends] in HD. destruct HD as [HD Hd]. destruct (IH HD) as (A & L & B). cbn [any_along_dims fold_right length drop_coords].
    fold (any_along_dims m ds).
    assert (N : ndim (any_dim (any_along_dims m ds) d) = (ndim m - S (length ds))%nat).
    { unfold ndim in *. cbn [any_dim shp]. unfold remove_nth. rewrite app_length, firstn_length, skipn_length. lia. }
    split; [exact N|]. split; [lia|]. intros q Hq.
    rewrite (any_dim_true (any_along_dims m ds) d q) by (auto; lia). split.
    + intros (p & Hp & E & <-). apply B in E as (p' & Hp' & E' & <-); [|exact Hp]. exists p'. auto.
    + intros (p & Hp & E & <-). fold (drop_coords ds p). exists (drop_coords ds p).
      assert (HR : in_range (shp (any_along_dims m ds)) (drop_coords ds p)).
      { clear -Hp. induction ds as [|d ds IH]; [exact Hp|]. cbn. apply in_range_remove. exact IH. }
      split; [exact HR|]. split; [|reflexivity]. apply B; eauto.
Qed.

(** All dimensions of [n] but [j], as 542-543 and 547-548 compute them. *)
Lemma all_but_descends n j k : (j < n)%nat -> descends n (filter (fun d => negb (Nat.eqb d j)) (seq k (n - k))) /\
   (length (filter (fun d => negb (Nat.eqb d j)) (seq k (n - k))) = n - k - (if Nat.leb k j then 1 else 0))%nat.
Proof.
  intros Hj. remember (n - k)%nat as w eqn:Ew. revert k Ew. induction w as [|w IH]; intros k Ew.
  - cbn. split; [exact I|lia].
  - cbn [seq filter]. destruct (IH (S k)) as [A B]; [lia|].
    destruct (Nat.eqb_spec k j) as [->|N]; cbn [negb].
    + split; [exact A|]. rewrite B. destruct (Nat.leb_spec (S j) j); destruct (Nat.leb_spec j j); lia.
    + cbn [descends length]. rewrite B. destruct (Nat.leb_spec (S k) j), (Nat.leb_spec k j); try lia; split; try lia; (split; [exact A|lia]).
Qed.

Lemma drop_all_but n j (p : list Z) : length p = n -> (j < n)%nat ->
  drop_coords (filter (fun d => negb (Nat.eqb d j)) (seq 0 n)) p = [nth j p 0].
Proof.
  intros L Hj.
  assert (G : forall w k, (k + w = n)%nat -> drop_coords (filter (fun d => negb (Nat.eqb d j)) (seq k w)) p =
     firstn k p ++ (if Nat.leb k j then [nth j p 0] else [])).
  { induction w as [|w IH]; intros k Ew.
    - cbn [seq filter drop_coords fold_right]. destruct (Nat.leb_spec k j); [lia|]. rewrite app_nil_r, firstn_all2 by lia. reflexivity.
    - cbn [seq filter]. specialize (IH (S k) ltac:(lia)).
      assert (F : firstn (S k) p = firstn k p ++ [nth k p 0]).
      { clear -L Ew Hj. assert (Hk : (k < length p)%nat) by lia. clear -Hk. revert p Hk. induction k as [|k IH]; intros [|a p] H; cbn in *; try lia; auto.
        f_equal. apply IH. lia. }
      destruct (Nat.eqb_spec k j) as [->|N]; cbn [negb].
      + rewrite IH, F. destruct (Nat.leb_spec (S j) j); [lia|]. destruct (Nat.leb_spec j j); [|lia]. now rewrite app_nil_r.
      + cbn [drop_coords fold_right]. fold (drop_coords (filter (fun d => negb (Nat.eqb d j)) (seq (S k) w)) p). rewrite IH, F.
        rewrite <- app_assoc. cbn [app].
        assert (Lk : length (firstn k p) = k) by (rewrite firstn_length; lia).
        rewrite <- Lk at 1. rewrite remove_nth_app. f_equal.
        destruct (Nat.leb_spec (S k) j), (Nat.leb_spec k j); auto; lia. }
  rewrite (G n O) by lia. reflexivity.
Qed.

Lemma any_dims_shp m ds : shp (any_along_dims m ds) = drop_coords ds (shp m).
Proof. induction ds as [|d ds IH]; [reflexivity|]. cbn [any_along_dims fold_right any_dim shp drop_coords]. fold (any_along_dims m ds). now rewrite IH. Qed.

Lemma map_sub_seq loc k w : map (fun d => (d - loc)%nat) (seq (loc + k) w) = seq k w.
Proof. revert k. induction w as [|w IH]; intros k; [reflexivity|]. cbn [seq map]. f_equal; [lia|]. rewrite <- Nat.add_succ_r. apply IH. Qed.

Lemma reduce_dims loc keep w : (loc <= keep)%nat ->
  map (fun d => (d - loc)%nat) (filter (fun d => negb (Nat.eqb d keep)) (seq loc w)) = filter (fun d => negb (Nat.eqb d (keep - loc))) (seq 0 w).
Proof.
  intros H. assert (G : forall k, map (fun d => (d - loc)%nat) (filter (fun d => negb (Nat.eqb d keep)) (seq (loc + k) w)) =
     filter (fun d => negb (Nat.eqb d (keep - loc))) (seq k w)).
  { induction w as [|w IH]; intros k; [reflexivity|]. cbn [seq filter]. rewrite <- Nat.add_succ_r.
    destruct (Nat.eqb_spec (loc + k) keep), (Nat.eqb_spec k (keep - loc)); try lia; cbn [negb map]; rewrite IH; auto. f_equal. lia. }
  specialize (G O). now rewrite Nat.add_0_r in G.
Qed.

Lemma nth_pos_in_range s p j : in_range s p -> (j < length s)%nat -> 0 <= nth j p 0 < nth j s 0.
Proof. intros H. revert j. induction H as [|n i s p Hi H IH]; intros [|j] Hj; cbn in *; try lia. apply IH. lia. Qed.

(** The mask that 542-548 compute is true where some true element lies. *)
Lemma reduce_to_spec m loc keep : (loc <= keep < loc + ndim m)%nat ->
  let b := reduce_to keep loc (seq loc (ndim m)) m in
  (0 <= nth (keep - loc) (shp m) 0 -> zlen b = nth (keep - loc) (shp m) 0) /\ touched m (keep - loc) (mask_positions b).
Proof.
  intros Hk b. unfold b, reduce_to. rewrite reduce_dims by lia. set (j := (keep - loc)%nat).
  assert (Hj : (j < ndim m)%nat) by (unfold j; lia).
  destruct (all_but_descends (ndim m) j 0 Hj) as [D _]. rewrite Nat.sub_0_r in D.
  destruct (any_dims_true m _ D) as (_ & _ & B).
  set (r := any_along_dims m (filter (fun d => negb (Nat.eqb d j)) (seq 0 (ndim m)))) in *.
  assert (S : shp r = [nth j (shp m) 0]) by (unfold r; rewrite any_dims_shp; apply drop_all_but; auto).
  assert (Sz : size r 0 = nth j (shp m) 0) by (unfold size; rewrite S; reflexivity).
  set (n := nth j (shp m) 0) in *.
  assert (L : forall q, 0 <= q < n -> nth (Z.to_nat q) (entries r) false = at_ r [q]).
  { intros q Hq. unfold entries. rewrite Sz, dim_positions_eq. erewrite nth_error_nth; [reflexivity|].
    rewrite nth_error_map, nth_error_positions by auto. reflexivity. }
  assert (Z0 : zlen (entries r) = Z.max 0 n).
  { unfold entries, zlen. rewrite map_length, Sz. unfold dim_positions. rewrite map_length, seq_length. lia. }
  split; [lia|]. split.
  - intros i k a c Ha Hc Hik. unfold mask_positions in Ha, Hc.
    assert (G : forall f w s, forall i k a c, nth_error (filter f (map Z.of_nat (seq s w))) i = Some a ->
              nth_error (filter f (map Z.of_nat (seq s w))) k = Some c -> (i < k)%nat -> a < c).
    { clear. intros f. induction w as [|w IH]; intros s i k a c Ha Hc Hik; [destruct i; discriminate|].
      cbn [seq map filter] in Ha, Hc. destruct (f (Z.of_nat s)).
      - destruct i as [|i], k as [|k]; try lia.
        + cbn in Ha, Hc. injection Ha as <-. apply nth_error_In, filter_In in Hc as [Hc _].
          apply in_map_iff in Hc as (u & <- & Hu). apply in_seq in Hu. lia.
        + cbn in Ha, Hc. eapply IH; eauto. lia.
      - eapply IH; eauto. }
    unfold positions in Ha, Hc. eapply G; eauto.
  - intros q. unfold mask_positions. rewrite filter_In, <- dim_positions_eq, dim_positions_In, Z0. split.
    + intros [Hq E]. rewrite L in E by lia. apply B in E as (p & Hp & E & Ep).
      * exists p. split; [exact Hp|]. split; [exact E|].
        rewrite drop_all_but in Ep by (auto; now apply in_range_length in Hp). congruence.
      * rewrite S. constructor; [lia|constructor].
    + intros (p & Hp & E & <-). pose proof (nth_pos_in_range _ _ j Hp Hj) as Hr. fold n in Hr. split; [lia|].
      rewrite L by auto. apply B; [rewrite S; constructor; [lia|constructor]|]. exists p. split; [auto|]. split; [auto|].
      apply drop_all_but; [now apply in_range_length in Hp|auto].
Qed.

Lemma touched_fun m j a b : touched m j a -> touched m j b -> a = b.
Proof.
  intros [A1 A2] [B1 B2]. assert (E : forall q, In q a <-> In q b) by (intros q; rewrite A2, B2; reflexivity). clear A2 B2.
  revert b B1 E. induction a as [|x a IH]; intros b B1 E.
  - destruct b as [|y b]; [reflexivity|]. destruct (proj2 (E y) (or_introl eq_refl)).
  - destruct b as [|y b]; [destruct (proj1 (E x) (or_introl eq_refl))|].
    assert (XA : forall q, In q a -> x < q).
    { intros q Hq. apply In_nth_error in Hq as [i Hi]. apply (A1 O (S i)); auto. lia. }
    assert (YB : forall q, In q b -> y < q).
    { intros q Hq. apply In_nth_error in Hq as [i Hi]. apply (B1 O (S i)); auto. lia. }
    assert (x = y).
    { destruct (proj1 (E x) (or_introl eq_refl)) as [Hx|Hx]; [auto|]. destruct (proj2 (E y) (or_introl eq_refl)) as [Hy|Hy]; [auto|].
      specialize (XA _ Hy). specialize (YB _ Hx). lia. }
    subst y. f_equal. apply IH.
    + intros i k u v Hu Hv Hik. apply (A1 (S i) (S k)); auto. lia.
    + intros i k u v Hu Hv Hik. apply (B1 (S i) (S k)); auto. lia.
    + intros q. split; intros Hq.
      * destruct (proj1 (E q) (or_intror Hq)) as [<-|]; [|auto]. specialize (XA _ Hq). lia.
      * destruct (proj2 (E q) (or_intror Hq)) as [<-|]; [|auto]. specialize (YB _ Hq). lia.
Qed.

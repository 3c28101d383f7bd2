(** Lemmas about the length dimension (Meta.v: index_length, split_length, cat_length). *)

From Coq Require Import String List ZArith Bool Lia Permutation.
From Coq Require Import ZifyBool.
From Verif Require Import Py Meta MetaSpec MetaProofs.
Import ListNotations.
Open Scope Z_scope.

(* ---------- max ---------- *)

Lemma fold_max_spec l a :
  (fold_left Z.max l a = a \/ In (fold_left Z.max l a) l) /\
  a <= fold_left Z.max l a /\ (forall x, In x l -> x <= fold_left Z.max l a).
Proof.
  revert a; induction l as [|y l IH]; intros a; simpl.
  - repeat split; auto; lia.
  - destruct (IH (Z.max a y)) as (H1 & H2 & H3). repeat split.
    + destruct H1 as [H1|H1]; [|auto]. destruct (Z.max_spec a y) as [[? E]|[? E]]; rewrite E in *; auto.
    + lia.
    + intros x [->|Hx]; [lia|auto].
Qed.

Lemma is_max_len_unique rs m1 m2 : is_max_len rs m1 -> is_max_len rs m2 -> m1 = m2.
Proof.
  intros [(r1 & I1 & E1) H1] [(r2 & I2 & E2) H2].
  specialize (H1 _ I2). specialize (H2 _ I1). lia.
Qed.

Lemma max_length_exists c rs : rs <> [] ->
  exists mx, max_length (of_rows c rs) = Ok mx /\ is_max_len rs mx.
Proof.
  destruct rs as [|r rs]; [congruence|]; intros _.
  unfold max_length; simpl. eexists; split; [reflexivity|].
  destruct (fold_max_spec (map rlen rs) (rlen r)) as (H1 & H2 & H3).
  split.
  - destruct H1 as [H1|H1].
    + exists r; split; [left; auto|auto].
    + apply in_map_iff in H1 as (x & Hx & Hi). exists x; split; [right; auto|auto].
  - intros x [<-|Hx]; auto. apply H3. now apply in_map.
Qed.

Lemma max_length_of_rows c rs mx : is_max_len rs mx -> max_length (of_rows c rs) = Ok mx.
Proof.
  intros H. destruct (max_length_exists c rs) as (m & E & Hm).
  - destruct H as [(r & Hr & _) _]. intros ->; destruct Hr.
  - rewrite E. f_equal. eapply is_max_len_unique; eauto.
Qed.

Lemma is_max_len_nonneg rs mx : nonneg rs -> is_max_len rs mx -> 0 <= mx.
Proof.
  intros H [(r & Hr & E) _]. unfold nonneg in H; rewrite Forall_forall in H. specialize (H _ Hr). lia.
Qed.

Lemma is_max_len_nonempty rs mx : is_max_len rs mx -> rs <> [].
Proof. intros [(r & Hr & _) _]. intros ->; destruct Hr. Qed.

(* ---------- ranges ---------- *)

Lemma py_range_filter st hi k : 0 < k -> 0 <= st ->
  forall N, hi <= N ->
  py_range st hi k = filter (fun p => (st <=? p) && (p <? hi) && ((p - st) mod k =? 0)) (positions N).
Proof.
  intros Hk Hst N HN. unfold positions. symmetry. apply filter_seq_range; auto; lia.
Qed.

Lemma py_range_In st hi k p : 0 < k -> 0 <= st ->
  In p (py_range st hi k) <-> st <= p < hi /\ (p - st) mod k = 0.
Proof.
  intros Hk Hst. rewrite (py_range_filter st hi k Hk Hst hi) by lia.
  rewrite filter_In, positions_spec. lia.
Qed.

Lemma memb_In p l : memb p l = true <-> In p l.
Proof.
  unfold memb; rewrite existsb_exists; split.
  - intros (x & H & E); apply Z.eqb_eq in E; now subst.
  - intros H; exists p; split; auto; apply Z.eqb_refl.
Qed.

Lemma memb_py_range st hi k p : 0 < k -> 0 <= st ->
  memb p (py_range st hi k) = (st <=? p) && (p <? hi) && ((p - st) mod k =? 0).
Proof.
  intros Hk Hst. apply eq_true_iff_eq. rewrite memb_In, py_range_In by auto. lia.
Qed.

Lemma filter_lt_range st hi k len : 0 < k -> 0 <= st ->
  filter (fun p => p <? len) (py_range st hi k) = py_range st (Z.min hi len) k.
Proof.
  intros Hk Hst.
  rewrite (py_range_filter st hi k Hk Hst (Z.max hi len)) by lia.
  rewrite (py_range_filter st (Z.min hi len) k Hk Hst (Z.max hi len)) by lia.
  induction (positions (Z.max hi len)) as [|p l IH]; simpl; auto.
  destruct ((st <=? p) && (p <? hi) && ((p - st) mod k =? 0)) eqn:E; simpl.
  - destruct (p <? len) eqn:E2.
    + replace ((st <=? p) && (p <? Z.min hi len) && ((p - st) mod k =? 0)) with true by lia. now f_equal.
    + replace ((st <=? p) && (p <? Z.min hi len) && ((p - st) mod k =? 0)) with false by lia. auto.
  - replace ((st <=? p) && (p <? Z.min hi len) && ((p - st) mod k =? 0)) with false by lia. auto.
Qed.

Lemma zlen_py_range st hi k : 0 < k ->
  zlen (py_range st hi k) = Z.max 0 ((hi - st + k - 1) / k).
Proof.
  intros; unfold zlen, py_range. rewrite map_length, seq_length, range_len_pos by auto. lia.
Qed.

Lemma count_real_range st hi k len : 0 < k -> 0 <= st ->
  count_real (py_range st hi k) len = Z.max 0 ((Z.min hi len - st + k - 1) / k).
Proof. intros; unfold count_real. rewrite filter_lt_range, zlen_py_range by auto. reflexivity. Qed.

Lemma ceil_div_eq x k : 0 < k -> ceil_div x k = (x + k - 1) / k.
Proof.
  intros; unfold ceil_div.
  pose proof (Z.div_mod (- x) k). pose proof (Z.mod_pos_bound (- x) k).
  apply Z.div_unique with (k - 1 - (- x) mod k); lia.
Qed.

(* ---------- field-wise maps over rows ---------- *)

Lemma zip_map {A B C} (f : A -> B) (g : A -> C) l : zip (map f l) (map g l) = map (fun x => (f x, g x)) l.
Proof. induction l; simpl; auto. now rewrite IHl. Qed.

Lemma keep_sos_rows b rs : keep_sos b (map rsos rs) = map (fun r => rsos r && b) rs.
Proof.
  unfold keep_sos; destruct b; rewrite ?map_map; apply map_ext; intros; now rewrite ?andb_true_r, ?andb_false_r.
Qed.

Lemma eos_int_rows i rs :
  update_eos_from_integer (map reos rs) (map rlen rs) i = map (fun r => reos r && (rlen r <=? i + 1)) rs.
Proof. unfold update_eos_from_integer. rewrite zip_map, map_map. reflexivity. Qed.

Lemma eos_slice_rows st sp rs :
  update_eos_from_slice (map reos rs) (map rlen rs) st sp
  = map (fun r => reos r && (st <? rlen r) && (rlen r <=? sp)) rs.
Proof. unfold update_eos_from_slice. rewrite zip_map, map_map. reflexivity. Qed.

(** A field-wise update that keeps ids and chunk indices is a map over rows. *)
Lemma make_meta_map_rows (c : bool) rs (fs : row -> bool) (fe : row -> bool) (fl : row -> Z) :
  make_meta (map rid rs) (map fs rs) (map fe rs) (map fl rs) (if c then Some (map rch rs) else None)
  = Ok (of_rows c (map (fun r => mkRow (rid r) (fs r) (fe r) (fl r) (rch r)) rs)).
Proof.
  rewrite <- make_meta_of_rows. rewrite !map_map. reflexivity.
Qed.

Lemma of_rows_ext c rs (f g : row -> row) : (forall r, In r rs -> f r = g r) -> of_rows c (map f rs) = of_rows c (map g rs).
Proof. intros H; f_equal; now apply map_ext_in. Qed.

(* ---------- C02, C03: slices ---------- *)

Lemma index_slice_raw c rs mx a b k : 0 < k -> 0 <= mx -> is_max_len rs mx ->
  let lo := slice_lo mx a in
  let hi := if k =? 1 then slice_hi mx b else mx - ((mx - 1 - lo) mod k) in
  index_length (of_rows c rs) (LSlice (mkSlice a b (Some k)))
  = Ok (of_rows c (map (fun r => mkRow (rid r) (rsos r && ((lo =? 0) && (hi >? 0)))
                                   (reos r && (lo <? rlen r) && (rlen r <=? hi))
                                   (if k =? 1 then clip (rlen r - lo) 0 (hi - lo)
                                    else ceil_div (clip (rlen r - lo) 0 (hi - lo)) k) (rch r)) rs)).
Proof.
  intros Hk Hmx Hmax lo hi.
  unfold index_length, index_length_slice. rewrite (max_length_of_rows _ _ _ Hmax). cbn [bind].
  rewrite slice_indices_pos by auto. cbn [bind].
  replace (k <? 0) with false by lia.
  fold lo. fold hi.
  unfold of_rows at 1 2 3 4 5 6 7; cbn [ids sos eos lens chs].
  rewrite keep_sos_rows, eos_slice_rows.
  destruct (k =? 1) eqn:E; rewrite map_map; apply make_meta_map_rows.
Qed.

Lemma index_slice_step1 c rs mx a b : 0 <= mx -> is_max_len rs mx ->
  slice_lo mx a <= slice_hi mx b ->
  index_length (of_rows c rs) (LSlice (mkSlice a b (Some 1)))
  = Ok (of_rows c (map (row_keep (slice_positions mx a b 1)) rs)).
Proof.
  intros Hmx Hmax Hle. rewrite (index_slice_raw c rs mx) by (auto; lia).
  change (1 =? 1) with true. cbv iota. cbv zeta.
  f_equal. apply of_rows_ext. intros r Hr. unfold row_keep.
  rewrite !slice_positions_range by lia.
  pose proof (slice_lo_bounds mx a Hmx). pose proof (slice_hi_bounds mx b Hmx).
  rewrite !memb_py_range, count_real_range by lia.
  rewrite !Z.mod_1_r. unfold clip.
  replace (Z.min (slice_hi mx b) (rlen r) - slice_lo mx a + 1 - 1) with
    (Z.min (slice_hi mx b) (rlen r) - slice_lo mx a) by lia.
  rewrite Z.div_1_r.
  f_equal; lia.
Qed.

Lemma index_slice_crossed c rs mx a b : 0 <= mx -> is_max_len rs mx ->
  slice_hi mx b < slice_lo mx a ->
  index_length (of_rows c rs) (LSlice (mkSlice a b (Some 1)))
  = Ok (of_rows c (map (fun r => mkRow (rid r) false false (slice_hi mx b - slice_lo mx a) (rch r)) rs)).
Proof.
  intros Hmx Hmax Hle. rewrite (index_slice_raw c rs mx) by (auto; lia).
  change (1 =? 1) with true. cbv iota. cbv zeta.
  f_equal. apply of_rows_ext. intros r Hr.
  pose proof (slice_lo_bounds mx a Hmx). pose proof (slice_hi_bounds mx b Hmx). unfold clip.
  f_equal; try lia.
Qed.

(** Largest selected position of an omitted stop. *)
Lemma strided_last mx lo k : 1 < k -> 0 <= lo < mx ->
  lo <= mx - 1 - (mx - 1 - lo) mod k < mx /\ (mx - 1 - (mx - 1 - lo) mod k - lo) mod k = 0.
Proof.
  intros Hk H. pose proof (Z.mod_pos_bound (mx - 1 - lo) k). pose proof (Z.div_mod (mx - 1 - lo) k).
  assert (0 <= (mx - 1 - lo) / k) by (apply Z.div_pos; lia).
  split; [nia|].
  replace (mx - 1 - (mx - 1 - lo) mod k - lo) with ((mx - 1 - lo) / k * k) by lia.
  apply Z.mod_mul; lia.
Qed.

Lemma index_slice_strided c rs mx a k : 1 < k -> 0 <= mx -> nonneg rs -> is_max_len rs mx ->
  let ps := slice_positions mx a None k in
  index_length (of_rows c rs) (LSlice (mkSlice a None (Some k)))
  = Ok (of_rows c (map (fun r => mkRow (rid r) (rsos r && memb 0 ps)
                                   (reos r && existsb (fun p => p <? rlen r) ps && existsb (fun p => rlen r - 1 <=? p) ps)
                                   (count_real ps (rlen r)) (rch r)) rs)).
Proof.
  intros Hk Hmx Hnn Hmax ps. rewrite (index_slice_raw c rs mx) by (auto; lia).
  replace (k =? 1) with false by lia. cbv zeta.
  f_equal. apply of_rows_ext. intros r Hr.
  assert (Hl : 0 <= rlen r) by (unfold nonneg in Hnn; rewrite Forall_forall in Hnn; auto).
  assert (Hlm : rlen r <= mx) by (apply Hmax; auto).
  pose proof (slice_lo_bounds mx a Hmx) as Hlo. set (lo := slice_lo mx a) in *.
  assert (Eps : ps = py_range lo mx k).
  { unfold ps. rewrite slice_positions_range by lia. reflexivity. }
  rewrite Eps. rewrite memb_py_range, count_real_range by lia.
  set (t := (mx - 1 - lo) mod k). assert (Ht : 0 <= t < k) by (apply Z.mod_pos_bound; lia).
  destruct (Z.eq_dec lo mx) as [E|E].
  - (* nothing selected *)
    assert (Et : t = k - 1). { unfold t. rewrite E. replace (mx - 1 - mx) with (-1) by lia.
      symmetry. apply Z.mod_unique with (-1); lia. }
    rewrite py_range_nil by lia. simpl existsb. rewrite Et.
    f_equal; try lia.
    unfold clip. rewrite ceil_div_eq by lia.
    replace (Z.min (Z.max (rlen r - lo) 0) (mx - (k - 1) - lo) + k - 1) with 0 by lia.
    rewrite Z.div_0_l by lia.
    assert ((Z.min mx (rlen r) - lo + k - 1) / k < 1) by (apply Z.div_lt_upper_bound; lia). lia.
  - destruct (strided_last mx lo k) as [L1 L2]; try lia. fold t in L1, L2.
    assert (X1 : existsb (fun p => p <? rlen r) (py_range lo mx k) = (lo <? rlen r)).
    { apply eq_true_iff_eq. rewrite existsb_exists. split.
      - intros (p & Hp & Hp2). apply py_range_In in Hp; lia.
      - intros. exists lo. split; [apply py_range_In; try lia|lia].
        rewrite Z.sub_diag, Z.mod_0_l; lia. }
    assert (X2 : existsb (fun p => rlen r - 1 <=? p) (py_range lo mx k) = (rlen r <=? mx - t)).
    { apply eq_true_iff_eq. rewrite existsb_exists. split.
      - intros (p & Hp & Hp2). apply py_range_In in Hp; try lia. destruct Hp as [Hp Hpm].
        assert (p <= mx - 1 - t); [|lia].
        (* p = lo + q k *)
        pose proof (Z.div_mod (p - lo) k). pose proof (Z.div_mod (mx - 1 - lo) k). fold t in H0.
        assert ((p - lo) / k <= (mx - 1 - lo) / k) by (apply Z.div_le_mono; lia). nia.
      - intros. exists (mx - 1 - t). split; [apply py_range_In; lia|lia]. }
    rewrite X1, X2.
    f_equal.
    + rewrite <- andb_assoc. f_equal.
      replace (mx - t >? 0) with true by lia.
      destruct (Z.eq_dec lo 0) as [E0|E0].
      * rewrite E0. rewrite Z.sub_diag, Z.mod_0_l by lia. lia.
      * lia.
    + unfold clip. rewrite ceil_div_eq by lia.
      (* the clamp at the last selected position does not change the count *)
      destruct (Z_le_gt_dec (rlen r) (mx - t)).
      * replace (Z.min mx (rlen r)) with (rlen r) by lia.
        replace (Z.min (Z.max (rlen r - lo) 0) (mx - t - lo)) with (Z.max (rlen r - lo) 0) by lia.
        destruct (Z_le_gt_dec (rlen r) lo).
        -- replace (Z.max (rlen r - lo) 0) with 0 by lia.
           rewrite (Z.div_small (0 + k - 1)) by lia.
           assert ((rlen r - lo + k - 1) / k < 1) by (apply Z.div_lt_upper_bound; lia). lia.
        -- replace (Z.max (rlen r - lo) 0) with (rlen r - lo) by lia.
           assert (0 <= (rlen r - lo + k - 1) / k) by (apply Z.div_pos; lia). lia.
      * replace (Z.min mx (rlen r)) with (rlen r) by lia.
        replace (Z.min (Z.max (rlen r - lo) 0) (mx - t - lo)) with (mx - t - lo) by lia.
        assert (Q : (mx - t - lo + k - 1) / k = (rlen r - lo + k - 1) / k).
        { assert (E2 : mx - t - lo + k - 1 = ((mx - 1 - lo) / k + 1) * k + 0).
          { pose proof (Z.div_mod (mx - 1 - lo) k). fold t in H. lia. }
          rewrite E2. rewrite Z.div_add_l by lia. rewrite Z.div_0_l by lia.
          replace (rlen r - lo + k - 1) with (((mx - 1 - lo) / k + 1) * k + (rlen r - (mx - t))).
          2:{ pose proof (Z.div_mod (mx - 1 - lo) k). fold t in H. lia. }
          rewrite Z.div_add_l by lia. rewrite (Z.div_small (rlen r - (mx - t))) by lia. reflexivity. }
        rewrite Q.
        assert (0 <= (rlen r - lo + k - 1) / k) by (apply Z.div_pos; lia). lia.
Qed.

Lemma index_slice_strided_ignores_stop c rs mx a b k : 1 < k -> 0 <= mx -> is_max_len rs mx ->
  index_length (of_rows c rs) (LSlice (mkSlice a b (Some k)))
  = index_length (of_rows c rs) (LSlice (mkSlice a None (Some k))).
Proof.
  intros. rewrite !(index_slice_raw c rs mx) by (auto; lia). now replace (k =? 1) with false by lia.
Qed.

Lemma index_slice_neg_step c rs mx a b k : k < 0 -> 0 <= mx -> is_max_len rs mx ->
  index_length (of_rows c rs) (LSlice (mkSlice a b (Some k))) = Err NotImplementedError.
Proof.
  intros Hk Hmx Hmax. unfold index_length, index_length_slice.
  rewrite (max_length_of_rows _ _ _ Hmax). cbn [bind].
  unfold slice_indices; simpl. replace (k =? 0) with false by lia. replace (mx <? 0) with false by lia.
  replace (k <? 0) with true by lia. cbn [bind]. now replace (k <? 0) with true by lia.
Qed.

Lemma index_slice_zero_step c rs mx a b : is_max_len rs mx ->
  index_length (of_rows c rs) (LSlice (mkSlice a b (Some 0))) = Err ValueError.
Proof.
  intros Hmax. unfold index_length, index_length_slice.
  rewrite (max_length_of_rows _ _ _ Hmax). reflexivity.
Qed.

(* ---------- C04: integer ---------- *)

Lemma index_int_nonneg c rs i : 0 <= i ->
  index_length (of_rows c rs) (LInt i)
  = Ok (of_rows c (map (fun r => mkRow (rid r) (rsos r && (i =? 0)) (reos r && (rlen r <=? i + 1))
                                   (if i <? rlen r then 1 else 0) (rch r)) rs)).
Proof.
  intros Hi. unfold index_length, index_length_int. replace (i <? 0) with false by lia. cbn [bind].
  unfold of_rows at 1 2 3 4 5 6; cbn [ids sos eos lens chs].
  rewrite keep_sos_rows, eos_int_rows, map_map, make_meta_map_rows.
  f_equal. apply of_rows_ext. intros r _. f_equal. unfold clip. destruct (i <? rlen r) eqn:E; lia.
Qed.

Lemma index_int_neg c rs mx i : is_max_len rs mx -> i < 0 -> 0 <= mx + i ->
  index_length (of_rows c rs) (LInt i) = index_length (of_rows c rs) (LInt (mx + i)).
Proof.
  intros Hmax Hi Hj. unfold index_length, index_length_int.
  replace (i <? 0) with true by lia. replace (mx + i <? 0) with false by lia.
  rewrite (max_length_of_rows _ _ _ Hmax). reflexivity.
Qed.

(* ---------- C05: lists and masks ---------- *)

Lemma is_sorted_ascending_spec l :
  is_sorted_ascending l = true <->
  (forall i j a b, nth_error l i = Some a -> nth_error l j = Some b -> (i <= j)%nat -> a <= b).
Proof.
  split.
  - induction l as [|x l IH]; intros H i j a b Hi Hj Hij.
    + destruct i; discriminate.
    + assert (Hl : is_sorted_ascending l = true).
      { simpl in H. destruct l; auto. apply andb_true_iff in H as [_ H]; auto. }
      assert (Hx : forall k y, nth_error l k = Some y -> x <= y).
      { intros k y Hk. destruct l as [|z l]; [destruct k; discriminate|].
        simpl in H. apply andb_true_iff in H as [H _].
        assert (z <= y) by (eapply (IH Hl 0%nat k); eauto; simpl; auto with arith). lia. }
      destruct i, j; simpl in *.
      * congruence || (assert (a = b) by congruence; lia).
      * injection Hi as ->. eauto.
      * lia.
      * eapply (IH Hl i j); eauto; lia.
  - induction l as [|x l IH]; intros H; auto.
    simpl. destruct l as [|y l]; auto.
    apply andb_true_iff; split.
    + assert (x <= y) by (apply (H 0%nat 1%nat); simpl; auto). lia.
    + apply IH. intros i j a b Hi Hj Hij. apply (H (S i) (S j)); simpl; auto; lia.
Qed.

Lemma minmax_fold t : forall mn mx, mn <= mx ->
  let r := fold_left (fun (mm : Z * Z) i =>
            let '(mn, mx) := mm in
            if i >? mx then (mn, i) else if i <? mn then (i, mx) else (mn, mx)) t (mn, mx) in
  (fst r = mn \/ In (fst r) t) /\ (snd r = mx \/ In (snd r) t) /\
  fst r <= mn /\ mx <= snd r /\ (forall x, In x t -> fst r <= x <= snd r).
Proof.
  induction t as [|i t IH]; intros mn mx Hle; simpl.
  - repeat split; auto; try lia; contradiction.
  - destruct (i >? mx) eqn:E1; [|destruct (i <? mn) eqn:E2].
    + specialize (IH mn i ltac:(lia)). cbv zeta in IH. destruct IH as (A & B & C & D & F).
      repeat split; try lia.
      * tauto.
      * destruct B as [B|B]; rewrite ?B; auto.
      * destruct H as [<-|H]; [lia|apply F; auto].
      * destruct H as [<-|H]; [lia|apply F; auto].
    + specialize (IH i mx ltac:(lia)). cbv zeta in IH. destruct IH as (A & B & C & D & F).
      repeat split; try lia.
      * destruct A as [A|A]; rewrite ?A; auto.
      * tauto.
      * destruct H as [<-|H]; [lia|apply F; auto].
      * destruct H as [<-|H]; [lia|apply F; auto].
    + specialize (IH mn mx Hle). cbv zeta in IH. destruct IH as (A & B & C & D & F).
      repeat split; try lia; try tauto.
      * destruct H as [<-|H]; [lia|apply F; auto].
      * destruct H as [<-|H]; [lia|apply F; auto].
Qed.

Lemma minmax_spec l : l <> [] ->
  exists mn mx, minmax l = Ok (mn, mx) /\ In mn l /\ In mx l /\ (forall x, In x l -> mn <= x <= mx).
Proof.
  destruct l as [|a t]; [congruence|]; intros _. unfold minmax.
  pose proof (minmax_fold t a a ltac:(lia)) as H. cbv zeta in H.
  destruct (fold_left _ t (a, a)) as [mn mx] eqn:E. simpl in H. destruct H as (A & B & C & D & F).
  exists mn, mx; repeat split; auto.
  - simpl; destruct A as [->|A]; auto.
  - simpl; destruct B as [->|B]; auto.
  - destruct H as [<-|H]; [lia|apply F; auto].
  - destruct H as [<-|H]; [lia|apply F; auto].
Qed.

Lemma count_lt_sum ks n : zsum (map (fun k => if n >? k then 1 else 0) ks) = count_real ks n.
Proof.
  unfold count_real. induction ks as [|k ks IH]; simpl; auto.
  rewrite IH. destruct (k <? n) eqn:E.
  - replace (n >? k) with true by lia. rewrite zlen_cons. lia.
  - replace (n >? k) with false by lia. lia.
Qed.


Lemma index_list_ok c rs mx ks : is_max_len rs mx -> ks <> [] ->
  is_sorted_ascending (map (wrap_neg mx) ks) = true ->
  let ps := map (wrap_neg mx) ks in
  (forall p, In p ps -> 0 <= p) ->
  index_length (of_rows c rs) (LInts ks)
  = Ok (of_rows c (map (fun r => mkRow (rid r) (rsos r && memb 0 ps)
                                   (reos r && existsb (fun p => p <? rlen r) ps && existsb (fun p => rlen r <=? p) ps)
                                   (count_real ps (rlen r)) (rch r)) rs)).
Proof.
  intros Hmax Hne Hs ps Hpos.
  unfold index_length, index_length_list. rewrite (max_length_of_rows _ _ _ Hmax). cbn [bind].
  change (make_indices_positive ks mx) with ps.
  change (map (wrap_neg mx) ks) with ps in Hs. rewrite Hs. cbn [negb].
  destruct (minmax_spec ps) as (mn & mxi & E & H1 & H2 & H3).
  { unfold ps; destruct ks; [congruence|discriminate]. }
  rewrite E. cbn [bind].
  unfold of_rows at 1 2 3 4 5 6; cbn [ids sos eos lens chs].
  rewrite keep_sos_rows, eos_slice_rows. unfold update_lengths_from_list_of_indices.
  rewrite map_map, make_meta_map_rows.
  f_equal. apply of_rows_ext. intros r _. f_equal.
  - f_equal. apply eq_true_iff_eq. rewrite memb_In. split.
    + intros HH. assert (mn = 0) by lia. now subst.
    + intros HH. specialize (H3 _ HH). specialize (Hpos _ H1). lia.
  - rewrite <- !andb_assoc. f_equal. f_equal.
    + apply eq_true_iff_eq. rewrite existsb_exists. split.
      * intros; exists mn; split; auto.
      * intros (p & Hp & Hp2). specialize (H3 _ Hp). lia.
    + apply eq_true_iff_eq. rewrite existsb_exists. split.
      * intros; exists mxi; split; auto.
      * intros (p & Hp & Hp2). specialize (H3 _ Hp). lia.
  - apply count_lt_sum.
Qed.

Lemma index_list_unsorted c rs mx ks : is_max_len rs mx ->
  is_sorted_ascending (map (wrap_neg mx) ks) = false ->
  index_length (of_rows c rs) (LInts ks) = Err IndexError.
Proof.
  intros Hmax Hs.
  unfold index_length, index_length_list. rewrite (max_length_of_rows _ _ _ Hmax). cbn [bind].
  change (make_indices_positive ks mx) with (map (wrap_neg mx) ks). now rewrite Hs.
Qed.

Lemma nonzero_from_spec m : forall i,
  nonzero_from (Z.of_nat i) m = map Z.of_nat (filter (fun j => nth (j - i) m false) (seq i (length m))).
Proof.
  induction m as [|b m IH]; intros i; simpl; auto.
  replace (Z.of_nat i + 1) with (Z.of_nat (S i)) by lia.
  rewrite Nat.sub_diag. rewrite IH.
  assert (E : filter (fun j => nth (j - S i) m false) (seq (S i) (length m))
              = filter (fun j => match (j - i)%nat with O => b | S k => nth k m false end) (seq (S i) (length m))).
  { apply filter_ext_in. intros j Hj. apply in_seq in Hj.
    replace (j - i)%nat with (S (j - S i)) by lia. reflexivity. }
  rewrite E. destruct b; reflexivity.
Qed.

Lemma nonzero_spec m p :
  In p (nonzero_from 0 m) <-> 0 <= p < zlen m /\ nth (Z.to_nat p) m false = true.
Proof.
  change 0 with (Z.of_nat 0) at 1. rewrite nonzero_from_spec, in_map_iff. split.
  - intros (x & <- & H). apply filter_In in H as [H H1]. apply in_seq in H.
    rewrite Nat.sub_0_r in H1. rewrite Nat2Z.id. unfold zlen. split; [lia|auto].
  - intros [H H1]. exists (Z.to_nat p). split; [lia|].
    apply filter_In. rewrite Nat.sub_0_r. split; auto. apply in_seq. unfold zlen in H. lia.
Qed.

Lemma nonzero_sorted m i : is_sorted_ascending (nonzero_from i m) = true.
Proof.
  apply is_sorted_ascending_spec.
  assert (G : forall m i, (forall x, In x (nonzero_from i m) -> i <= x)).
  { clear. induction m as [|b m IH]; intros i x; simpl; [tauto|].
    destruct b; simpl.
    - intros [<-|H]; [lia|]. specialize (IH _ _ H). lia.
    - intros H. specialize (IH _ _ H). lia. }
  revert i; induction m as [|b m IH]; intros i i1 j1 x y Hi Hj Hij; simpl in *.
  - destruct i1; discriminate.
  - destruct b; simpl in *; [|eapply (IH (i + 1)); eauto].
    destruct i1, j1; simpl in *; try lia.
    + assert (x = y) by congruence; lia.
    + injection Hi as <-. apply nth_error_In in Hj. apply G in Hj. lia.
    + eapply (IH (i + 1) i1 j1); eauto; lia.
Qed.

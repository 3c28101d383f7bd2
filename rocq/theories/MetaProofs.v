(** Lemmas about Meta.v. *)

From Coq Require Import String List ZArith Bool Lia Permutation.
From Coq Require Import ZifyBool.
From Verif Require Import Py Meta MetaSpec.
Import ListNotations.
Open Scope Z_scope.

(* ---------- generic list lemmas ---------- *)

Lemma zlen_nonneg {A} (l : list A) : 0 <= zlen l.
Proof. unfold zlen; lia. Qed.

Lemma zlen_cons {A} (a : A) l : zlen (a :: l) = 1 + zlen l.
Proof. unfold zlen; simpl length; lia. Qed.

Lemma zlen_map {A B} (f : A -> B) l : zlen (map f l) = zlen l.
Proof. unfold zlen; now rewrite map_length. Qed.

Lemma zlen_app {A} (l1 l2 : list A) : zlen (l1 ++ l2) = zlen l1 + zlen l2.
Proof. unfold zlen; rewrite app_length; lia. Qed.

Lemma seqM_ok {A} (l : list A) : seqM (map Ok l) = Ok l.
Proof. induction l; simpl; auto. now rewrite IHl. Qed.

Lemma mapM_ok {A B} (f : A -> res B) (g : A -> B) l :
  (forall a, In a l -> f a = Ok (g a)) -> mapM f l = Ok (map g l).
Proof.
  unfold mapM; induction l; simpl; intros H; auto.
  rewrite H by auto; simpl. rewrite IHl; auto.
Qed.

Lemma mapM_cons {A B} (f : A -> res B) a l :
  mapM f (a :: l) = bind (f a) (fun b => bind (mapM f l) (fun r => Ok (b :: r))).
Proof. reflexivity. Qed.

Lemma mapM_inv {A B} (f : A -> res B) l r :
  mapM f l = Ok r -> Forall2 (fun a b => f a = Ok b) l r.
Proof.
  revert r; induction l; intros r; simpl.
  - intros [= <-]; constructor.
  - rewrite mapM_cons. destruct (f a) eqn:E; simpl; try discriminate.
    destruct (mapM f l) eqn:E2; simpl; try discriminate.
    intros [= <-]; constructor; auto.
Qed.

Lemma positions_spec n p : In p (positions n) <-> 0 <= p < n.
Proof.
  unfold positions; rewrite in_map_iff; split.
  - intros (x & <- & H); apply in_seq in H; lia.
  - intros H; exists (Z.to_nat p); split; [lia|apply in_seq; lia].
Qed.

Lemma positions_length n : length (positions n) = Z.to_nat n.
Proof. unfold positions; now rewrite map_length, seq_length. Qed.

(* ---------- python slice and range ---------- *)

Lemma slice_indices_pos a b k n :
  0 < k -> 0 <= n ->
  slice_indices (mkSlice a b (Some k)) n = Ok (slice_lo n a, slice_hi n b, k).
Proof.
  intros Hk Hn; unfold slice_indices, slice_lo, slice_hi, slice_end; simpl.
  replace (k =? 0) with false by lia. replace (n <? 0) with false by lia.
  replace (k <? 0) with false by lia.
  assert (E : forall v, (if v <? 0 then Z.max (v + n) 0 else Z.min v n)
                        = (if v <? 0 then Z.max 0 (n + v) else Z.min v n)).
  { intros v; destruct (v <? 0); lia. }
  destruct a, b; rewrite ?E; reflexivity.
Qed.

Lemma slice_indices_none a b n :
  slice_indices (mkSlice a b None) n = slice_indices (mkSlice a b (Some 1)) n.
Proof. reflexivity. Qed.

Lemma slice_lo_bounds n a : 0 <= n -> 0 <= slice_lo n a <= n.
Proof. intros; unfold slice_lo, slice_end; destruct a; [destruct (z <? 0) eqn:E|]; lia. Qed.
Lemma slice_hi_bounds n a : 0 <= n -> 0 <= slice_hi n a <= n.
Proof. intros; unfold slice_hi, slice_end; destruct a; [destruct (z <? 0) eqn:E|]; lia. Qed.

Lemma range_len_pos st hi k : 0 < k ->
  range_len st hi k = Z.to_nat ((hi - st + k - 1) / k).
Proof. intros; unfold range_len. now replace (0 <? k) with true by lia. Qed.

Lemma py_range_nil st hi k : 0 < k -> hi <= st -> py_range st hi k = [].
Proof.
  intros; unfold py_range; rewrite range_len_pos by lia.
  replace (Z.to_nat ((hi - st + k - 1) / k)) with 0%nat; [reflexivity|].
  assert ((hi - st + k - 1) / k <= 0); [|lia].
  assert ((hi - st + k - 1) / k < 1); [|lia].
  apply Z.div_lt_upper_bound; lia.
Qed.

Lemma py_range_cons st hi k : 0 < k -> st < hi ->
  py_range st hi k = st :: py_range (st + k) hi k.
Proof.
  intros; unfold py_range; rewrite !range_len_pos by lia.
  assert (E : (hi - st + k - 1) / k = (hi - (st + k) + k - 1) / k + 1).
  { replace (hi - st + k - 1) with (hi - (st + k) + k - 1 + 1 * k) by lia.
    rewrite Z.div_add by lia; lia. }
  rewrite E.
  assert (0 <= (hi - (st + k) + k - 1) / k) by (apply Z.div_pos; lia).
  rewrite Z2Nat.inj_add by lia. rewrite Nat.add_comm. simpl.
  f_equal; [lia|]. rewrite <- seq_shift, map_map. apply map_ext; intros; lia.
Qed.

Lemma filter_none {A} (f : A -> bool) l : (forall a, In a l -> f a = false) -> filter f l = [].
Proof. induction l; simpl; intros H; auto. rewrite H by auto; auto. Qed.

Lemma filter_all {A} (f : A -> bool) l : (forall a, In a l -> f a = true) -> filter f l = l.
Proof. induction l; simpl; intros H; auto. rewrite H by auto; f_equal; auto. Qed.

Lemma filter_seq_range k hi : 0 < k -> forall (len s : nat) (st : Z),
  Z.of_nat s <= st -> hi <= Z.of_nat (s + len) ->
  filter (fun p => (st <=? p) && (p <? hi) && ((p - st) mod k =? 0)) (map Z.of_nat (seq s len))
  = py_range st hi k.
Proof.
  intros Hk; induction len; intros s st H1 H2.
  - simpl. rewrite py_range_nil by lia; auto.
  - simpl seq; simpl map; simpl filter.
    destruct (Z.eq_dec (Z.of_nat s) st) as [E|E].
    + destruct (Z_lt_le_dec st hi).
      * replace (st <=? Z.of_nat s) with true by lia.
        replace (Z.of_nat s <? hi) with true by lia.
        replace ((Z.of_nat s - st) mod k =? 0) with true
          by (replace (Z.of_nat s - st) with 0 by lia; rewrite Z.mod_0_l by lia; reflexivity).
        simpl. rewrite py_range_cons by lia. f_equal; [lia|].
        destruct (Z_lt_le_dec (st + k) hi).
        -- destruct len as [|len']; [lia|].
           (* elements strictly between s and st + k are rejected, the rest follow the induction hypothesis *)
           transitivity (filter (fun p : Z => (st + k <=? p) && (p <? hi) && ((p - (st + k)) mod k =? 0))
                          (map Z.of_nat (seq (S s) (S len')))).
           ++ apply filter_ext_in; intros p Hp.
              apply in_map_iff in Hp as (x & <- & Hx); apply in_seq in Hx.
              destruct (Z_lt_le_dec (Z.of_nat x) (st + k)).
              ** rewrite (Z.mod_small (Z.of_nat x - st)) by lia. lia.
              ** replace (Z.of_nat x - st) with (Z.of_nat x - (st + k) + 1 * k) by lia.
                 rewrite Z.mod_add by lia. lia.
           ++ apply IHlen; lia.
        -- rewrite py_range_nil by lia. apply filter_none; intros p Hp.
           apply in_map_iff in Hp as (x & <- & Hx); apply in_seq in Hx.
           destruct (Z_lt_le_dec (Z.of_nat x) hi).
           ++ rewrite (Z.mod_small (Z.of_nat x - st)) by lia. lia.
           ++ lia.
      * rewrite py_range_nil by lia.
        replace (Z.of_nat s <? hi) with false by lia. rewrite andb_false_r; simpl.
        apply filter_none; intros p Hp.
        apply in_map_iff in Hp as (x & <- & Hx); apply in_seq in Hx. lia.
    + replace (st <=? Z.of_nat s) with false by lia. simpl.
      apply IHlen; lia.
Qed.

Lemma slice_positions_range n a b k : 0 < k -> 0 <= n ->
  slice_positions n a b k = py_range (slice_lo n a) (slice_hi n b) k.
Proof.
  intros. unfold slice_positions, positions, in_slice.
  apply filter_seq_range; auto.
  - pose proof (slice_lo_bounds n a); lia.
  - pose proof (slice_hi_bounds n b); lia.
Qed.

Lemma slice_positions_bounds n a b k p : 0 <= n ->
  In p (slice_positions n a b k) -> 0 <= p < n.
Proof. intros Hn H; apply filter_In in H as [H _]; now apply positions_spec. Qed.

(* ---------- gather ---------- *)

Lemma py_getitem_nat {A} (l : list A) p : 0 <= p ->
  py_getitem l p = match nth_error l (Z.to_nat p) with Some a => Ok a | None => Err IndexError end.
Proof.
  intros; unfold py_getitem. replace (p <? 0) with false by lia. now replace (p <? 0) with false by lia.
Qed.

Lemma py_gather_at {A} (l : list A) ps :
  (forall p, In p ps -> 0 <= p < zlen l) -> py_gather l ps = Ok (at_positions l ps).
Proof.
  unfold py_gather; induction ps as [|p ps IH]; intros H; [reflexivity|].
  rewrite mapM_cons, py_getitem_nat by (apply (H p); left; auto).
  unfold at_positions; simpl.
  destruct (nth_error l (Z.to_nat p)) eqn:E.
  - simpl. rewrite IH by (intros; apply H; right; auto). reflexivity.
  - apply nth_error_None in E. specialize (H p (or_introl eq_refl)). unfold zlen in H; lia.
Qed.

Lemma at_positions_map {A B} (f : A -> B) l ps :
  at_positions (map f l) ps = map f (at_positions l ps).
Proof.
  unfold at_positions; induction ps; simpl; auto.
  rewrite IHps, map_app, nth_error_map. destruct (nth_error l (Z.to_nat a)); auto.
Qed.

Lemma at_positions_length {A} (l : list A) ps :
  (forall p, In p ps -> 0 <= p < zlen l) -> length (at_positions l ps) = length ps.
Proof.
  unfold at_positions; induction ps; simpl; intros H; auto.
  destruct (nth_error l (Z.to_nat a)) eqn:E.
  - simpl. rewrite IHps; auto.
  - apply nth_error_None in E. specialize (H a (or_introl eq_refl)). unfold zlen in H; lia.
Qed.

(* ---------- rows ---------- *)

Lemma make_meta_of_rows (c : bool) rs :
  make_meta (map rid rs) (map rsos rs) (map reos rs) (map rlen rs)
    (if c then Some (map rch rs) else None) = Ok (of_rows c rs).
Proof. unfold make_meta; rewrite !map_length, !Nat.eqb_refl; reflexivity. Qed.

Lemma of_rows_wf c rs : wf (of_rows c rs).
Proof. destruct c; unfold wf; simpl; rewrite !map_length; auto. Qed.

Lemma wf_of_rows m : wf m -> exists c rs, m = of_rows c rs.
Proof.
  destruct m as [i s e l c]; unfold wf; simpl; intros (H1 & H2 & H3 & H4).
  destruct c as [c|]; [exists true | exists false].
  - revert s e l c H1 H2 H3 H4; induction i; intros [|? s] [|? e] [|? l] [|? c]; simpl; try discriminate.
    + intros; exists []; reflexivity.
    + intros [= H1] [= H2] [= H3] [= H4].
      destruct (IHi _ _ _ _ H1 H2 H3 H4) as (rs & E).
      exists (mkRow a b b0 z z0 :: rs). unfold of_rows in *; simpl in *. injection E; intros; subst; reflexivity.
  - clear H4. revert s e l H1 H2 H3; induction i; intros [|? s] [|? e] [|? l]; simpl; try discriminate.
    + intros; exists []; reflexivity.
    + intros [= H1] [= H2] [= H3].
      destruct (IHi _ _ _ H1 H2 H3) as (rs & E).
      exists (mkRow a b b0 z 0 :: rs). unfold of_rows in *; simpl in *. injection E; intros; subst; reflexivity.
Qed.

Lemma opt_field_of_rows (c : bool) rs (f : forall A, list A -> res (list A)) rs' :
  (f Z (map rch rs) = Ok (map rch rs')) ->
  opt_field (f Z) (if c then Some (map rch rs) else None) = Ok (if c then Some (map rch rs') else None).
Proof. destruct c; simpl; intros H; auto. now rewrite H. Qed.

(* ---------- C01: index_batch ---------- *)

Lemma list_slice_pos {A} (l : list A) a b k : 0 < k ->
  list_slice l (mkSlice a b (Some k)) = Ok (at_positions l (slice_positions (zlen l) a b k)).
Proof.
  intros; unfold list_slice. rewrite slice_indices_pos by (auto using zlen_nonneg). simpl.
  rewrite <- slice_positions_range by (auto using zlen_nonneg).
  apply py_gather_at. intros; eapply slice_positions_bounds; eauto using zlen_nonneg.
Qed.

Lemma tensor_slice_pos {A} (l : list A) a b k : 0 < k ->
  tensor_slice l (mkSlice a b (Some k)) = Ok (at_positions l (slice_positions (zlen l) a b k)).
Proof.
  intros; unfold tensor_slice; simpl. replace (k <=? 0) with false by lia. now apply list_slice_pos.
Qed.

Lemma index_batch_slice c rs a b k : 0 < k ->
  index_batch (of_rows c rs) (BSlice (mkSlice a b (Some k)))
  = Ok (of_rows c (at_positions rs (slice_positions (zlen rs) a b k))).
Proof.
  intros Hk; unfold index_batch. unfold of_rows at 1 2 3 4 5. cbn [ids sos eos lens chs].
  rewrite list_slice_pos, !tensor_slice_pos by auto.
  rewrite !zlen_map, !at_positions_map. cbn [bind].
  rewrite (opt_field_of_rows c rs (fun A (l : list A) => tensor_slice l (mkSlice a b (Some k)))
             (at_positions rs (slice_positions (zlen rs) a b k))).
  2:{ rewrite tensor_slice_pos by auto. now rewrite zlen_map, at_positions_map. }
  cbn [bind]. apply make_meta_of_rows.
Qed.

Lemma index_batch_slice_default c rs a b :
  index_batch (of_rows c rs) (BSlice (mkSlice a b None))
  = Ok (of_rows c (at_positions rs (slice_positions (zlen rs) a b 1))).
Proof. rewrite <- index_batch_slice by lia. reflexivity. Qed.

Lemma py_getitem_err {A} (l : list A) k e : py_getitem l k = Err e -> e = IndexError.
Proof.
  unfold py_getitem. set (j := if k <? 0 then _ else _). simpl.
  destruct (j <? 0); [congruence|]. destruct (nth_error l (Z.to_nat j)); congruence.
Qed.

Lemma py_gather_out {A} (l : list A) ks k :
  In k ks -> ~ (- zlen l <= k < zlen l) -> py_gather l ks = Err IndexError.
Proof.
  unfold py_gather; induction ks as [|x ks IH]; intros Hin Hk; [destruct Hin|].
  rewrite mapM_cons.
  destruct (py_getitem l x) eqn:E.
  - simpl. destruct Hin as [->|Hin].
    + exfalso. unfold py_getitem in E.
      destruct (k <? 0) eqn:E1.
      * replace (k + zlen l <? 0) with true in E by lia. discriminate.
      * rewrite E1 in E. destruct (nth_error l (Z.to_nat k)) eqn:E2; [|discriminate].
        assert (Z.to_nat k < length l)%nat by (apply nth_error_Some; congruence).
        unfold zlen in Hk; lia.
    + now rewrite IH.
  - simpl. apply py_getitem_err in E. congruence.
Qed.

Lemma py_getitem_mod {A} (l : list A) k : - zlen l <= k < zlen l ->
  py_getitem l k = match nth_error l (Z.to_nat (k mod zlen l)) with Some a => Ok a | None => Err IndexError end.
Proof.
  intros H; unfold py_getitem.
  assert (E : (if k <? 0 then k + zlen l else k) = k mod zlen l).
  { destruct (k <? 0) eqn:E.
    - apply Z.mod_unique with (-1); lia.
    - symmetry; apply Z.mod_small; lia. }
  rewrite E. replace (k mod zlen l <? 0) with false; auto.
  pose proof (Z.mod_pos_bound k (zlen l)); lia.
Qed.

Lemma py_gather_mod {A} (l : list A) ks :
  (forall k, In k ks -> - zlen l <= k < zlen l) ->
  py_gather l ks = Ok (at_positions l (map (fun k => k mod zlen l) ks)).
Proof.
  unfold py_gather; induction ks as [|p ks IH]; intros H; [reflexivity|].
  rewrite mapM_cons, py_getitem_mod by (apply (H p); left; auto).
  unfold at_positions; simpl.
  destruct (nth_error l (Z.to_nat (p mod zlen l))) eqn:E.
  - simpl. rewrite IH by (intros; apply H; right; auto). reflexivity.
  - apply nth_error_None in E. specialize (H p (or_introl eq_refl)).
    assert (0 < zlen l) by lia. pose proof (Z.mod_pos_bound p (zlen l)). unfold zlen in *; lia.
Qed.

Lemma index_batch_ints c rs ks :
  (forall k, In k ks -> - zlen rs <= k < zlen rs) ->
  index_batch (of_rows c rs) (BInts ks)
  = Ok (of_rows c (at_positions rs (map (fun k => k mod zlen rs) ks))).
Proof.
  intros H; unfold index_batch. unfold of_rows at 1 2 3 4 5; cbn [ids sos eos lens chs].
  rewrite !py_gather_mod by (intros k Hk; rewrite zlen_map; auto).
  rewrite !zlen_map, !at_positions_map. cbn [bind].
  rewrite (opt_field_of_rows c rs (fun A (l : list A) => py_gather l ks)
             (at_positions rs (map (fun k => k mod zlen rs) ks))).
  2:{ rewrite py_gather_mod by (intros k Hk; rewrite zlen_map; auto). now rewrite zlen_map, at_positions_map. }
  cbn [bind]. apply make_meta_of_rows.
Qed.

Lemma index_batch_ints_out c rs ks k :
  In k ks -> ~ (- zlen rs <= k < zlen rs) ->
  index_batch (of_rows c rs) (BInts ks) = Err IndexError.
Proof.
  intros H H1; unfold index_batch; unfold of_rows at 1; cbn [ids].
  rewrite (py_gather_out _ ks k); auto. now rewrite zlen_map.
Qed.

Lemma index_batch_int_ints c rs k :
  index_batch (of_rows c rs) (BInt k) = index_batch (of_rows c rs) (BInts [k]).
Proof.
  unfold index_batch.
  assert (E : py_gather (ids (of_rows c rs)) [k] = bind (py_getitem (ids (of_rows c rs)) k) (fun a => Ok [a]))
    by reflexivity.
  rewrite E. destruct (py_getitem _ _); reflexivity.
Qed.

Lemma index_batch_int c rs k : - zlen rs <= k < zlen rs ->
  exists r, nth_error rs (Z.to_nat (k mod zlen rs)) = Some r /\
            index_batch (of_rows c rs) (BInt k) = Ok (of_rows c [r]).
Proof.
  intros H. rewrite index_batch_int_ints, index_batch_ints.
  2:{ intros ? [<-|[]]; auto. }
  unfold at_positions; simpl.
  destruct (nth_error rs (Z.to_nat (k mod zlen rs))) eqn:E.
  - exists r; split; auto.
  - apply nth_error_None in E. assert (0 < zlen rs) by lia.
    pose proof (Z.mod_pos_bound k (zlen rs)). unfold zlen in *; lia.
Qed.

Lemma select_mask_masked {A} (l : list A) m : select_mask l m = masked l m.
Proof.
  unfold masked; revert m; induction l; intros [|b m]; simpl; auto.
  destruct b; simpl; now rewrite IHl.
Qed.

Lemma masked_map {A B} (f : A -> B) l m : masked (map f l) m = map f (masked l m).
Proof.
  unfold masked; revert m; induction l; intros [|b m]; simpl; auto.
  destruct b; simpl; now rewrite IHl.
Qed.

Lemma tensor_mask_eq {A} (l : list A) m : length l = length m -> tensor_mask l m = Ok (masked l m).
Proof. intros H; unfold tensor_mask. now rewrite H, Nat.eqb_refl, select_mask_masked. Qed.

Lemma ids_by_mask_eq l m : (length l <= length m)%nat -> ids_by_mask l m = Ok (masked l m).
Proof.
  unfold masked; revert m; induction l; intros [|b m]; simpl; try lia; auto.
  intros H; rewrite IHl by lia. simpl. destruct b; reflexivity.
Qed.

Lemma ids_by_mask_short l m : (length m < length l)%nat -> ids_by_mask l m = Err IndexError.
Proof.
  revert m; induction l; intros [|b m]; simpl; try lia; auto.
  intros H; rewrite IHl by lia. reflexivity.
Qed.

Lemma index_batch_mask c rs b : length b = length rs ->
  index_batch (of_rows c rs) (BMask b) = Ok (of_rows c (masked rs b)).
Proof.
  intros H; unfold index_batch. unfold of_rows at 1 2 3 4 5; cbn [ids sos eos lens chs].
  rewrite ids_by_mask_eq by (rewrite map_length; lia).
  rewrite !tensor_mask_eq by (now rewrite map_length).
  rewrite !masked_map. cbn [bind].
  rewrite (opt_field_of_rows c rs (fun A (l : list A) => tensor_mask l b) (masked rs b)).
  2:{ rewrite tensor_mask_eq by (now rewrite map_length). now rewrite masked_map. }
  cbn [bind]. apply make_meta_of_rows.
Qed.

Lemma index_batch_mask_bad c rs b : length b <> length rs ->
  index_batch (of_rows c rs) (BMask b) = Err IndexError.
Proof.
  intros H; unfold index_batch. unfold of_rows at 1 2; cbn [ids sos].
  destruct (Nat.lt_ge_cases (length b) (length rs)).
  - rewrite ids_by_mask_short by (rewrite map_length; lia). reflexivity.
  - rewrite ids_by_mask_eq by (rewrite map_length; lia). cbn [bind].
    unfold tensor_mask. rewrite map_length.
    now replace (Nat.eqb (length rs) (length b)) with false by (symmetry; apply Nat.eqb_neq; lia).
Qed.

Lemma list_slice_bad_step {A} (l : list A) a b k : k <= 0 ->
  bind (list_slice l (mkSlice a b (Some k)))
       (fun _ => @Err meta ValueError) = Err ValueError.
Proof.
  intros H. destruct (list_slice l (mkSlice a b (Some k))) eqn:E; auto. simpl.
  unfold list_slice, slice_indices in E; simpl in E.
  destruct (k =? 0) eqn:Ek; [simpl in E; congruence|].
  replace (zlen l <? 0) with false in E by (pose proof (zlen_nonneg l); lia).
  replace (k <? 0) with true in E by lia. simpl in E.
  exfalso.
  set (st := match a with Some v => _ | None => _ end) in E.
  set (sp := match b with Some v => _ | None => _ end) in E.
  assert (Hst : st <= zlen l - 1).
  { unfold st. destruct a; [destruct (z <? 0) eqn:?|]; pose proof (zlen_nonneg l); lia. }
  assert (Hsp : -1 <= sp).
  { unfold sp. destruct b; [destruct (z <? 0) eqn:?|]; pose proof (zlen_nonneg l); lia. }
  rewrite py_gather_at in E; [discriminate|].
  intros p Hp. unfold py_range in Hp. apply in_map_iff in Hp as (x & <- & Hx). apply in_seq in Hx.
  unfold range_len in Hx. replace (0 <? k) with false in Hx by lia.
  assert (Z.of_nat x < (st - sp - k - 1) / - k) by lia.
  assert (Z.of_nat x * (- k) <= st - sp - 1 ).
  { assert (Z.of_nat x + 1 <= (st - sp - k - 1) / - k) by lia.
    assert (- k * (Z.of_nat x + 1) <= - k * ((st - sp - k - 1) / - k)) by (apply Z.mul_le_mono_nonneg_l; lia).
    pose proof (Z.mul_div_le (st - sp - k - 1) (- k)). lia. }
  nia.
Qed.

Lemma index_batch_slice_bad c rs a b k : k <= 0 ->
  index_batch (of_rows c rs) (BSlice (mkSlice a b (Some k))) = Err ValueError.
Proof.
  intros H; unfold index_batch.
  rewrite <- (list_slice_bad_step (ids (of_rows c rs)) a b k H).
  destruct (list_slice _ _); simpl; auto.
  unfold tensor_slice; simpl. now replace (k <=? 0) with true by lia.
Qed.

(** Lemmas about split, cat and drop_empty along the batch dimension, and equality. *)

From Coq Require Import String List ZArith Bool Lia Permutation.
From Coq Require Import ZifyBool.
From Verif Require Import Py Meta MetaSpec MetaProofs MetaLenProofs MetaSplitProofs.
Import ListNotations.
Open Scope Z_scope.

Lemma skipn_nth {A} (l : list A) a x : nth_error l a = Some x -> skipn a l = x :: skipn (S a) l.
Proof. revert l; induction a; intros [|y l]; simpl; try discriminate. - congruence. - intros H; now apply IHa. Qed.

Lemma skipn_skipn {A} (l : list A) : forall y x, skipn x (skipn y l) = skipn (x + y) l.
Proof.
  induction l as [|a l IH]; intros y x; [now rewrite !skipn_nil|].
  destruct y; [now rewrite Nat.add_0_r|]. rewrite Nat.add_succ_r. apply IH.
Qed.

Lemma at_positions_seq {A} (l : list A) n : forall a,
  at_positions l (map Z.of_nat (seq a n)) = firstn n (skipn a l).
Proof.
  unfold at_positions. induction n; intros a; [reflexivity|].
  cbn [seq map flat_map]. rewrite Nat2Z.id, IHn.
  destruct (nth_error l a) as [x|] eqn:E.
  - rewrite (skipn_nth l a x E). reflexivity.
  - apply nth_error_None in E. rewrite !skipn_all2 by lia. now rewrite !firstn_nil.
Qed.

Lemma map_seq_shift a n : forall s, 0 <= a ->
  map (fun i => a + Z.of_nat i * 1) (seq s n) = map Z.of_nat (seq (Z.to_nat a + s) n).
Proof.
  induction n; intros s Ha; simpl; auto. f_equal; [lia|].
  rewrite IHn by auto. now rewrite Nat.add_succ_r.
Qed.

Lemma py_range_seq a b : 0 <= a -> py_range a b 1 = map Z.of_nat (seq (Z.to_nat a) (Z.to_nat (b - a))).
Proof.
  intros Ha. unfold py_range. rewrite range_len_pos by lia. rewrite Z.div_1_r.
  replace (b - a + 1 - 1) with (b - a) by lia.
  rewrite map_seq_shift by auto. now rewrite Nat.add_0_r.
Qed.

Lemma sub_list_firstn {A} (l : list A) i j : 0 <= i <= j ->
  sub_list l i j = Ok (firstn (Z.to_nat (j - i)) (skipn (Z.to_nat i) l)).
Proof.
  intros H. unfold sub_list.
  change (list_slice l (mkSlice (Some i) (Some j) None)) with (list_slice l (mkSlice (Some i) (Some j) (Some 1))).
  rewrite list_slice_pos by lia. f_equal.
  rewrite slice_positions_range by (try lia; apply zlen_nonneg).
  unfold slice_lo, slice_hi, slice_end. replace (i <? 0) with false by lia. replace (j <? 0) with false by lia.
  pose proof (zlen_nonneg l).
  rewrite py_range_seq by lia. rewrite at_positions_seq.
  unfold zlen in *.
  destruct (Z_le_gt_dec (Z.of_nat (length l)) i).
  - rewrite !skipn_all2 by lia. now rewrite !firstn_nil.
  - replace (Z.min i (Z.of_nat (length l))) with i by lia.
    destruct (Z_le_gt_dec j (Z.of_nat (length l))).
    + now replace (Z.min j (Z.of_nat (length l))) with j by lia.
    + rewrite (firstn_all2 (n := Z.to_nat (j - i))) by (rewrite skipn_length; lia).
      apply firstn_all2. rewrite skipn_length. lia.
Qed.

(* ---------- chunks_of ---------- *)

Lemma chunks_of_fuel_map {A B} (f : A -> B) k : forall fuel l,
  chunks_of_fuel fuel k (map f l) = map (map f) (chunks_of_fuel fuel k l).
Proof.
  induction fuel; intros l; simpl; auto.
  destruct l as [|a l]; simpl; auto. rewrite <- (map_cons f), firstn_map, skipn_map, IHfuel. reflexivity.
Qed.

Lemma chunks_of_map {A B} (f : A -> B) k l : chunks_of k (map f l) = map (map f) (chunks_of k l).
Proof. unfold chunks_of. now rewrite map_length, chunks_of_fuel_map. Qed.

Lemma chunks_fuel_enough {A} k : (1 <= k)%nat -> forall f1 f2 (l : list A),
  (length l <= f1)%nat -> (length l <= f2)%nat -> chunks_of_fuel f1 k l = chunks_of_fuel f2 k l.
Proof.
  intros Hk; induction f1; intros f2 l H1 H2.
  - destruct l; [|simpl in H1; lia]. destruct f2; reflexivity.
  - destruct f2. { destruct l; [reflexivity|simpl in H2; lia]. }
    simpl. destruct l as [|a l]; auto. f_equal. apply IHf1; rewrite skipn_length; cbn [length] in *; lia.
Qed.

Lemma chunks_of_cons {A} k (l : list A) : (1 <= k)%nat -> l <> [] ->
  chunks_of k l = firstn k l :: chunks_of k (skipn k l).
Proof.
  intros Hk Hl. unfold chunks_of. destruct l as [|a l]; [congruence|]. cbn [length chunks_of_fuel].
  f_equal. apply chunks_fuel_enough; auto. rewrite skipn_length; cbn [length]; lia.
Qed.

Lemma chunks_of_concat {A} k (l : list A) : (1 <= k)%nat -> concat (chunks_of k l) = l.
Proof.
  intros Hk. remember (length l) as n eqn:E. revert l E.
  induction n as [n IH] using lt_wf_ind; intros l E.
  destruct l as [|a l]; [reflexivity|].
  rewrite chunks_of_cons by (auto; discriminate). cbn [concat].
  rewrite (IH (length (skipn k (a :: l)))).
  - apply firstn_skipn.
  - rewrite skipn_length. cbn [length] in *; lia.
  - reflexivity.
Qed.

Lemma chunks_of_sizes {A} k (l : list A) : (1 <= k)%nat ->
  Forall (fun p => (1 <= length p <= k)%nat) (chunks_of k l) /\
  Forall (fun p => length p = k) (removelast (chunks_of k l)).
Proof.
  intros Hk. remember (length l) as n eqn:E. revert l E.
  induction n as [n IH] using lt_wf_ind; intros l E.
  destruct l as [|a l]; [split; constructor|].
  rewrite chunks_of_cons by (auto; intros; discriminate).
  destruct (IH (length (skipn k (a :: l)))) with (l := skipn k (a :: l)) as [A1 A2].
  - rewrite skipn_length. cbn [length] in *; lia.
  - reflexivity.
  - split.
    + constructor; auto. rewrite firstn_length; cbn [length]; lia.
    + destruct (skipn k (a :: l)) as [|b r] eqn:Es.
      * simpl. auto.
      * assert (chunks_of k (b :: r) <> []) by (rewrite chunks_of_cons by (auto; discriminate); discriminate).
        destruct (chunks_of k (b :: r)) as [|x y] eqn:Ec; [congruence|].
        change (removelast (firstn k (a :: l) :: x :: y)) with (firstn k (a :: l) :: removelast (x :: y)).
        constructor; auto. apply firstn_length_le.
        assert (length (skipn k (a :: l)) = S (length r)) by (rewrite Es; reflexivity).
        rewrite skipn_length in H0. cbn [length] in *; lia.
Qed.

(* ---------- split_batch ---------- *)

Lemma split_ids_int (l : list string) k : 1 <= k -> forall n a, 0 <= a -> (Z.to_nat (zlen l - a) <= n)%nat ->
  mapM (fun i => sub_list l i (i + k)) (py_range a (zlen l) k) = Ok (chunks_of (Z.to_nat k) (skipn (Z.to_nat a) l)).
Proof.
  intros Hk; induction n; intros a Ha Hn.
  - rewrite py_range_nil by lia. rewrite skipn_all2 by (unfold zlen in Hn; lia). reflexivity.
  - destruct (Z_lt_le_dec a (zlen l)).
    + rewrite py_range_cons by lia. rewrite mapM_cons, sub_list_firstn by lia. cbn [bind].
      rewrite IHn by lia. cbn [bind].
      rewrite (chunks_of_cons _ (skipn (Z.to_nat a) l)).
      * replace (a + k - a) with k by lia. rewrite skipn_skipn.
        replace (Z.to_nat (a + k)) with (Z.to_nat k + Z.to_nat a)%nat by lia. reflexivity.
      * lia.
      * intros E. apply (f_equal (@length string)) in E. rewrite skipn_length in E. unfold zlen in *. simpl in E. lia.
    + rewrite py_range_nil by lia. rewrite skipn_all2 by (unfold zlen in *; lia). reflexivity.
Qed.

Lemma seqM_build c pss :
  seqM (build_metas (map (map rid) pss) (map (map rsos) pss) (map (map reos) pss) (map (map rlen) pss)
     (map (fun p => if c : bool then Some (map rch p) else None) pss)) = Ok (map (of_rows c) pss).
Proof.
  induction pss as [|p pss IH]; simpl; auto. rewrite make_meta_of_rows. cbn [bind].
  change (fun p0 : list row => if c then Some (map rch p0) else None) with (fun p : list row => if c then Some (map rch p) else None).
  rewrite IH. reflexivity.
Qed.

Lemma split_batch_int c rs k : 1 <= k ->
  split_batch (of_rows c rs) (SInt k) = Ok (map (of_rows c) (chunks_of (Z.to_nat k) rs)).
Proof.
  intros Hk. unfold split_batch. replace (k =? 0) with false by lia.
  unfold meta_len. cbn [ids sos eos lens chs of_rows].
  rewrite (split_ids_int (map rid rs) k Hk (Z.to_nat (zlen (map rid rs))) 0) by lia.
  cbn [bind]. cbn [Z.to_nat skipn]. rewrite chunks_of_map.
  assert (HS : forall A (f : row -> A), rs <> [] -> tensor_split (SInt k) (map f rs) = Ok (map (map f) (chunks_of (Z.to_nat k) rs))).
  { intros A f Hne. unfold tensor_split, tensor_split_int. replace (k <? 0) with false by lia. replace (k =? 0) with false by lia.
    rewrite <- chunks_of_map. destruct rs; [congruence|reflexivity]. }
  destruct rs as [|r rs].
  - destruct c; simpl; unfold tensor_split_int; replace (k <? 0) with false by lia; replace (k =? 0) with false by lia; reflexivity.
  - rewrite !HS by discriminate. cbn [bind].
    destruct c.
    + rewrite HS by discriminate. cbn [bind]. rewrite map_map. rewrite <- (seqM_build true). reflexivity.
    + cbn [bind]. rewrite map_map. rewrite <- (seqM_build false). reflexivity.
Qed.

Lemma take_sections_map {A B} (f : A -> B) secs : forall l,
  take_sections secs (map f l) = map (map f) (take_sections secs l).
Proof. induction secs as [|k secs IH]; intros l; simpl; auto. now rewrite firstn_map, skipn_map, IH. Qed.

Lemma take_sections_concat {A} secs : forall l : list A, Forall (fun k => 0 <= k) secs -> zsum secs = zlen l ->
  concat (take_sections secs l) = l /\ map (fun p => zlen p) (take_sections secs l) = secs.
Proof.
  induction secs as [|k secs IH]; intros l HF Hs.
  - destruct l; [auto|]. unfold zlen in Hs; simpl in Hs; lia.
  - inversion_clear HF. cbn [zsum fold_right] in Hs. change (fold_right Z.add 0) with zsum in Hs.
    assert (Hns : 0 <= zsum secs) by (clear -H0; induction H0; simpl; lia).
    destruct (IH (skipn (Z.to_nat k) l)) as [A1 A2]; auto.
    { unfold zlen in *. rewrite skipn_length. lia. }
    cbn [take_sections concat map]. rewrite A1, A2. split; [apply firstn_skipn|].
    f_equal. unfold zlen in *. rewrite firstn_length. lia.
Qed.

Lemma cumsum_cons0 secs : cumsum (0 :: secs) = 0 :: cumsum_from 0 secs.
Proof. reflexivity. Qed.

Lemma split_ids_list (l : list string) secs : forall acc, 0 <= acc -> Forall (fun k => 0 <= k) secs ->
  mapM (fun p => sub_list l (fst p) (snd p)) (zip (init (acc :: cumsum_from acc secs)) (cumsum_from acc secs))
  = Ok (take_sections secs (skipn (Z.to_nat acc) l)).
Proof.
  induction secs as [|k secs IH]; intros acc Ha HF; [reflexivity|].
  inversion_clear HF. cbn [cumsum_from].
  replace (init (acc :: (acc + k) :: cumsum_from (acc + k) secs)) with (acc :: init ((acc + k) :: cumsum_from (acc + k) secs))
    by reflexivity.
  cbn [zip]. rewrite mapM_cons. cbn [fst snd]. rewrite sub_list_firstn by lia. cbn [bind].
  rewrite IH by (auto; lia). cbn [bind take_sections]. rewrite skipn_skipn.
  replace (acc + k - acc) with k by lia.
  replace (Z.to_nat (acc + k)) with (Z.to_nat k + Z.to_nat acc)%nat by lia. reflexivity.
Qed.

Lemma split_batch_list c rs secs : Forall (fun k => 0 <= k) secs -> zsum secs = zlen rs ->
  split_batch (of_rows c rs) (SList secs) = Ok (map (of_rows c) (take_sections secs rs)).
Proof.
  intros HF Hs. unfold split_batch, meta_len. cbn [ids sos eos lens chs of_rows].
  rewrite zlen_map, Hs, Z.eqb_refl. rewrite cumsum_cons0. cbn [tl].
  rewrite split_ids_list by (auto; lia). cbn [bind]. cbn [Z.to_nat skipn]. rewrite take_sections_map.
  assert (HS : forall A (f : row -> A), tensor_split (SList secs) (map f rs) = Ok (map (map f) (take_sections secs rs))).
  { intros A f. unfold tensor_split, tensor_split_list. rewrite zlen_map, Hs, Z.eqb_refl, take_sections_map.
    replace (forallb _ secs) with true; auto. symmetry. apply forallb_forall. rewrite Forall_forall in HF.
    intros k Hk. specialize (HF k Hk). lia. }
  rewrite !HS. cbn [bind]. destruct c.
  - rewrite HS. cbn [bind]. rewrite map_map. rewrite <- (seqM_build true). reflexivity.
  - cbn [bind]. rewrite map_map. rewrite <- (seqM_build false). reflexivity.
Qed.

Lemma split_batch_list_bad c rs secs : zsum secs <> zlen rs ->
  split_batch (of_rows c rs) (SList secs) = Err ValueError.
Proof.
  intros Hs. unfold split_batch, meta_len. cbn [ids of_rows]. rewrite zlen_map.
  now replace (zsum secs =? zlen rs) with false by lia.
Qed.

Lemma split_batch_zero c rs : split_batch (of_rows c rs) (SInt 0) = Err ValueError.
Proof. reflexivity. Qed.

Lemma chunks_of_1 {A} (l : list A) : chunks_of 1 l = map (fun a => [a]) l.
Proof.
  induction l as [|a l IH]; auto. rewrite chunks_of_cons by (auto; discriminate). simpl. now rewrite IH.
Qed.

Lemma unbind_batch_rows c rs : unbind_batch (of_rows c rs) = Ok (map (fun r => of_rows c [r]) rs).
Proof. unfold unbind_batch. rewrite split_batch_int by lia. change (Z.to_nat 1) with 1%nat. now rewrite chunks_of_1, map_map. Qed.

(* ---------- cat_batch ---------- *)

Lemma all_some_map (l : list (bool * list row)) :
  all_some (map (fun p : bool * list row => if fst p then Some (map rch (snd p)) else None) l)
  = if forallb fst l then Some (map (fun p => map rch (snd p)) l) else None.
Proof.
  induction l as [|[c rs] l IH]; auto. cbn [map fst snd forallb].
  unfold all_some in *. cbn [fold_right]. rewrite IH.
  destruct c; cbn [andb]; auto. destruct (forallb fst l); reflexivity.
Qed.

Lemma cat_batch_rows (l : list (bool * list row)) : l <> [] ->
  cat_batch (map (fun p => of_rows (fst p) (snd p)) l)
  = Ok (of_rows (forallb fst l) (concat (map snd l))).
Proof.
  intros Hl. destruct l as [|[c1 r1] l]; [congruence|]. destruct l as [|[c2 r2] l].
  - simpl. rewrite andb_true_r, app_nil_r. reflexivity.
  - set (L := (c1, r1) :: (c2, r2) :: l).
    assert (E : cat_batch (map (fun p => of_rows (fst p) (snd p)) L) =
      make_meta (List.concat (map ids (map (fun p => of_rows (fst p) (snd p)) L)))
                (List.concat (map sos (map (fun p => of_rows (fst p) (snd p)) L)))
                (List.concat (map eos (map (fun p => of_rows (fst p) (snd p)) L)))
                (List.concat (map lens (map (fun p => of_rows (fst p) (snd p)) L)))
                (match all_some (map chs (map (fun p => of_rows (fst p) (snd p)) L)) with
                 | Some cs => Some (List.concat cs) | None => None end)) by reflexivity.
    rewrite E. rewrite !map_map. cbn [ids sos eos lens chs of_rows].
    rewrite all_some_map.
    assert (HM : forall A (f : row -> A), List.concat (map (fun p : bool * list row => map f (snd p)) L) = map f (concat (map snd L))).
    { intros. rewrite concat_map, map_map. reflexivity. }
    rewrite !HM. rewrite <- make_meta_of_rows. f_equal. destruct (forallb fst L); auto. now rewrite HM.
Qed.

Lemma cat_batch_pieces c pss : pss <> [] -> cat_batch (map (of_rows c) pss) = Ok (of_rows c (concat pss)).
Proof.
  intros Hp. pose proof (cat_batch_rows (map (fun p => (c, p)) pss)) as H.
  rewrite !map_map in H. cbn [fst snd] in H.
  eapply eq_trans; [apply H; destruct pss; [congruence|discriminate]|].
  rewrite map_id. f_equal. f_equal.
  destruct c.
  - apply forallb_forall. intros x Hx. apply in_map_iff in Hx as (y & <- & _). reflexivity.
  - destruct pss; [congruence|reflexivity].
Qed.

(* ---------- drop_empty ---------- *)

Lemma masked_filter {A} (f : A -> bool) l : masked l (map f l) = filter f l.
Proof. unfold masked. induction l; simpl; auto. destruct (f a); simpl; now rewrite IHl. Qed.

Lemma drop_empty_rows c rs : drop_empty (of_rows c rs) = Ok (of_rows c (filter (fun r => 0 <? rlen r) rs)).
Proof.
  unfold drop_empty. cbn [lens of_rows]. rewrite map_map.
  rewrite index_batch_mask by (now rewrite map_length). rewrite masked_filter.
  f_equal. f_equal. apply filter_ext. intros; lia.
Qed.

(* ---------- equality ---------- *)

Definition same_fields (a b : meta) : Prop := ids a = ids b /\ sos a = sos b /\ eos a = eos b /\ lens a = lens b.

Lemma same_fields_dec a b :
  list_eqb String.eqb (ids a) (ids b) && list_eqb Bool.eqb (sos a) (sos b)
  && list_eqb Bool.eqb (eos a) (eos b) && list_eqb Z.eqb (lens a) (lens b) = true <-> same_fields a b.
Proof.
  unfold same_fields. rewrite !andb_true_iff.
  rewrite (list_eqb_eq String.eqb String.eqb_eq), !(list_eqb_eq Bool.eqb Bool.eqb_true_iff), (list_eqb_eq Z.eqb Z.eqb_eq).
  tauto.
Qed.

Lemma meta_eq_nochunks a b : chs a = None -> chs b = None ->
  (a = b -> meta_eq a b = Ok true) /\ (a <> b -> meta_eq a b = Err AttributeError).
Proof.
  intros Ha Hb. unfold meta_eq. rewrite Ha, Hb. rewrite andb_true_r.
  destruct (list_eqb String.eqb (ids a) (ids b) && _ && _ && _) eqn:E.
  - split; auto. intros Hne. exfalso. apply Hne. apply same_fields_dec in E as (? & ? & ? & ?).
    apply meta_ext; congruence.
  - split; auto. intros ->. exfalso.
    assert (list_eqb String.eqb (ids b) (ids b) && list_eqb Bool.eqb (sos b) (sos b)
      && list_eqb Bool.eqb (eos b) (eos b) && list_eqb Z.eqb (lens b) (lens b) = true) by (apply same_fields_dec; repeat split).
    congruence.
Qed.

Lemma meta_eq_left_chunks a b x : chs a = Some x ->
  meta_eq a b = Ok (list_eqb Z.eqb x (lens b)).
Proof. intros Ha. unfold meta_eq. rewrite Ha. rewrite andb_false_r. reflexivity. Qed.

Lemma meta_eq_right_chunks a b x : chs a = None -> chs b = Some x -> meta_eq a b = Err AttributeError.
Proof. intros Ha Hb. unfold meta_eq. rewrite Ha, Hb. rewrite andb_false_r. reflexivity. Qed.

(* ---------- forms used by the theorems of record ---------- *)

Lemma make_meta_iff i s e l c :
  (length s = length i /\ length e = length i /\ length l = length i -> make_meta i s e l c = Ok (mkMeta i s e l c)) /\
  (~ (length s = length i /\ length e = length i /\ length l = length i) -> make_meta i s e l c = Err ValueError).
Proof.
  unfold make_meta. split; intros H.
  - destruct H as (-> & -> & ->). now rewrite !Nat.eqb_refl.
  - destruct (Nat.eqb (length i) (length l) && Nat.eqb (length l) (length s) && Nat.eqb (length s) (length e)) eqn:E; auto.
    exfalso. apply H. rewrite !andb_true_iff, !Nat.eqb_eq in E. lia.
Qed.

Lemma wf_iff_rows m : wf m <-> exists c rs, m = of_rows c rs.
Proof. split; [apply wf_of_rows|]. intros (c & rs & ->). apply of_rows_wf. Qed.

Lemma index_batch_int_out c rs k : ~ (- zlen rs <= k < zlen rs) ->
  index_batch (of_rows c rs) (BInt k) = Err IndexError.
Proof. intros H. rewrite index_batch_int_ints. apply index_batch_ints_out with (k := k); simpl; auto. Qed.

Lemma slice_bounds c rs mx a b m' : 0 <= mx -> nonneg rs -> is_max_len rs mx ->
  slice_lo mx a <= slice_hi mx b ->
  index_length (of_rows c rs) (LSlice (mkSlice a b (Some 1))) = Ok m' ->
  Forall (fun n => 0 <= n <= slice_hi mx b - slice_lo mx a) (lens m').
Proof.
  intros Hmx Hnn Hmax Hc H. rewrite (index_slice_step1 c rs mx) in H by auto. injection H as <-.
  cbn [lens of_rows]. rewrite map_map. apply Forall_forall. intros n Hn. apply in_map_iff in Hn as (r & <- & Hr).
  cbn [row_keep rlen]. rewrite slice_positions_range by lia.
  pose proof (slice_lo_bounds mx a). pose proof (slice_hi_bounds mx b).
  rewrite count_real_range by lia. rewrite Z.div_1_r. lia.
Qed.

Lemma index_list_exact c rs mx ks : is_max_len rs mx -> ks <> [] ->
  let ps := map (wrap_neg mx) ks in
  ascending ps -> (forall p, In p ps -> 0 <= p) ->
  index_length (of_rows c rs) (LInts ks)
  = Ok (of_rows c (map (fun r => mkRow (rid r) (rsos r && memb 0 ps)
                                   (reos r && existsb (fun p => p <? rlen r) ps && existsb (fun p => rlen r <=? p) ps)
                                   (count_real ps (rlen r)) (rch r)) rs)).
Proof. intros Hm Hk ps Hs Hp. apply index_list_ok; auto. apply is_sorted_ascending_spec. exact Hs. Qed.

Lemma index_list_not_ascending c rs mx ks : is_max_len rs mx -> ~ ascending (map (wrap_neg mx) ks) ->
  index_length (of_rows c rs) (LInts ks) = Err IndexError.
Proof.
  intros Hm Hs. apply index_list_unsorted with (mx := mx); auto.
  destruct (is_sorted_ascending _) eqn:E; auto. exfalso. apply Hs. exact (proj1 (is_sorted_ascending_spec _) E).
Qed.

Lemma filter_map_comm {A B} (f : A -> B) (p : B -> bool) l : filter p (map f l) = map f (filter (fun a => p (f a)) l).
Proof. induction l; simpl; auto. destruct (p (f a)); simpl; now rewrite IHl. Qed.

Lemma nonzero_mask_positions b : nonzero_from 0 b = mask_positions b.
Proof.
  unfold mask_positions, positions, zlen. rewrite Nat2Z.id. change 0 with (Z.of_nat 0). rewrite nonzero_from_spec, filter_map_comm.
  f_equal. apply filter_ext. intros j. now rewrite Nat2Z.id, Nat.sub_0_r.
Qed.

Lemma index_mask_list c rs b :
  index_length (of_rows c rs) (LMask b) = index_length (of_rows c rs) (LInts (mask_positions b)).
Proof. unfold index_length. now rewrite nonzero_mask_positions. Qed.

Lemma split_batch_groups c rs k : 1 <= k ->
  exists gs, split_batch (of_rows c rs) (SInt k) = Ok (map (of_rows c) gs) /\ groups_of k rs gs.
Proof.
  intros Hk. exists (chunks_of (Z.to_nat k) rs). split; [now apply split_batch_int|].
  split; [apply chunks_of_concat; lia|].
  destruct (chunks_of_sizes (Z.to_nat k) rs) as [A B]; [lia|]. unfold zlen.
  split; [eapply Forall_impl; [|exact A]|eapply Forall_impl; [|exact B]]; simpl; intros; lia.
Qed.

Lemma split_batch_sections c rs secs : Forall (fun k => 0 <= k) secs -> zsum secs = zlen rs ->
  exists gs, split_batch (of_rows c rs) (SList secs) = Ok (map (of_rows c) gs)
    /\ List.concat gs = rs /\ map (fun g => zlen g) gs = secs.
Proof. intros HF Hs. exists (take_sections secs rs). split; [now apply split_batch_list|now apply take_sections_concat]. Qed.

Lemma batch_roundtrip_int c rs k : rs <> [] -> 1 <= k ->
  bind (split_batch (of_rows c rs) (SInt k)) cat_batch = Ok (of_rows c rs).
Proof.
  intros Hr Hk. rewrite split_batch_int by auto. cbn [bind]. rewrite cat_batch_pieces.
  - now rewrite chunks_of_concat by lia.
  - rewrite chunks_of_cons by (auto; lia). discriminate.
Qed.

Lemma batch_roundtrip_list c rs secs : secs <> [] -> Forall (fun k => 0 <= k) secs -> zsum secs = zlen rs ->
  bind (split_batch (of_rows c rs) (SList secs)) cat_batch = Ok (of_rows c rs).
Proof.
  intros Hn HF Hs. rewrite split_batch_list by auto. cbn [bind]. rewrite cat_batch_pieces.
  - now rewrite (proj1 (take_sections_concat secs rs HF Hs)).
  - destruct secs; [congruence|discriminate].
Qed.

Lemma batch_roundtrip_unbind c rs : rs <> [] -> bind (unbind_batch (of_rows c rs)) cat_batch = Ok (of_rows c rs).
Proof. intros. apply batch_roundtrip_int; auto; lia. Qed.

Lemma meta_eq_chunks_iff a b x : chs a = Some x -> (meta_eq a b = Ok true <-> x = lens b) /\
  (meta_eq a b = Ok false <-> x <> lens b).
Proof.
  intros H. rewrite (meta_eq_left_chunks a b x H).
  pose proof (list_eqb_eq Z.eqb Z.eqb_eq x (lens b)) as E.
  destruct (list_eqb Z.eqb x (lens b)).
  - assert (x = lens b) by now apply E. split; split; intros K; try discriminate; try tauto; auto.
  - assert (x <> lens b) by (intros K; apply E in K; discriminate).
    split; split; intros K; try discriminate; try tauto; auto.
Qed.

Lemma last_nth {A} (l : list A) d : last l d = nth (length l - 1) l d.
Proof.
  induction l as [|a l IH]; auto. destruct l as [|b l]; auto.
  change (last (a :: b :: l) d) with (last (b :: l) d). rewrite IH.
  cbn [length]. replace (S (S (length l)) - 1)%nat with (S (S (length l) - 1))%nat by lia. reflexivity.
Qed.

Lemma py_range_length a b k : 0 < k -> length (py_range a b k) = Z.to_nat ((b - a + k - 1) / k).
Proof. intros. unfold py_range. now rewrite map_length, seq_length, range_len_pos. Qed.

Lemma nth_py_range a b k j d : 0 < k -> (j < length (py_range a b k))%nat ->
  nth j (py_range a b k) d = a + Z.of_nat j * k.
Proof.
  intros Hk Hj. destruct (nth_error (py_range a b k) j) as [v|] eqn:E.
  - rewrite (nth_error_nth _ _ d E). eapply py_range_nth; eauto.
  - apply nth_error_None in E. lia.
Qed.

Lemma refuses_int c rs mx k : nonneg rs -> is_max_len rs mx -> 1 <= k -> k < mx ->
  (exists r, In r rs /\ reos r = true /\ 0 < rlen r <= k * ((mx - 1) / k)) ->
  bind (split_length (of_rows c rs) (SInt k)) cat_length = Err ValueError.
Proof.
  intros Hn Hm Hk Hkm (r & Hr & He & Hl).
  assert (Hq : 1 <= (mx - 1) / k) by (apply Z.div_le_lower_bound; lia).
  assert (Hq2 : (mx - 0 + k - 1) / k = (mx - 1) / k + 1).
  { replace (mx - 0 + k - 1) with (mx - 1 + 1 * k) by lia. apply Z.div_add. lia. }
  assert (HL : length (py_range 0 mx k) = Z.to_nat ((mx - 1) / k + 1)) by (rewrite py_range_length, Hq2 by lia; reflexivity).
  eapply roundtrip_refuses with (mx := mx).
  - exact Hn.
  - exact Hm.
  - apply split_int_bounds. lia.
  - apply int_chain with (n := Z.to_nat (mx - 0)); lia.
  - rewrite map_length, HL. lia.
  - exists r. split; auto. split; auto.
    rewrite last_nth, map_length.
    set (f := fun i => (i, Z.min (i + k) mx)).
    assert (E : nth (length (py_range 0 mx k) - 1) (map f (py_range 0 mx k)) (0, 0) =
            f (nth (length (py_range 0 mx k) - 1) (py_range 0 mx k) 0)).
    { rewrite (nth_indep _ (0, 0) (f 0)) by (rewrite map_length; lia). apply map_nth. }
    rewrite E. cbn [fst f]. rewrite nth_py_range by lia. rewrite HL. lia.
Qed.

Lemma removelast_firstn_len {A} (l : list A) : removelast l = firstn (length l - 1) l.
Proof.
  induction l as [|a l IH]; auto. destruct l as [|b l]; auto.
  change (removelast (a :: b :: l)) with (a :: removelast (b :: l)). rewrite IH. cbn [length].
  replace (S (S (length l)) - 1)%nat with (S (S (length l) - 1))%nat by lia. reflexivity.
Qed.

Lemma refuses_list c rs mx secs : nonneg rs -> is_max_len rs mx ->
  Forall (fun k => 0 <= k) secs -> mx <= zsum secs -> (2 <= length secs)%nat ->
  (exists r, In r rs /\ reos r = true /\ 0 < rlen r <= zsum (removelast secs)) ->
  bind (split_length (of_rows c rs) (SList secs)) cat_length = Err ValueError.
Proof.
  intros Hn Hm HF Hs H2 (r & Hr & He & Hl).
  pose proof (cumsum_from_chain secs 0 HF) as Hc.
  eapply roundtrip_refuses with (mx := mx).
  - exact Hn.
  - exact Hm.
  - now apply split_list_bounds.
  - exact Hc.
  - unfold cumsum. rewrite bounds_length. exact H2.
  - exists r. split; auto. split; auto.
    rewrite last_nth. unfold cumsum. rewrite bounds_length.
    assert (E : nth (length secs - 1) (zip (0 :: init (cumsum_from 0 secs)) (cumsum_from 0 secs)) (0, 0)
             = (0 + zsum (firstn (length secs - 1) secs), 0 + zsum (firstn (S (length secs - 1)) secs))).
    { apply nth_error_nth. apply cumsum_from_nth. lia. }
    rewrite E. cbn [fst]. rewrite <- removelast_firstn_len. lia.
Qed.

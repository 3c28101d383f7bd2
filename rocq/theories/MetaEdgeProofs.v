(** Time steps before the first one, and batches without streams. *)
From Coq Require Import String List ZArith Bool Lia.
From Coq Require Import ZifyBool.
From Verif Require Import Py Meta MetaSpec MetaProofs MetaLenProofs.
Import ListNotations.
Open Scope Z_scope.

Lemma int_before_start c rs mx i : nonneg rs -> is_max_len rs mx -> mx + i < 0 -> i < 0 ->
  index_length (of_rows c rs) (LInt i)
  = Ok (of_rows c (map (fun r => mkRow (rid r) false (reos r && (rlen r =? 0) && (mx + i =? -1)) 1 (rch r)) rs)).
Proof.
  intros Hn Hmax Hj Hi. unfold index_length, index_length_int. replace (i <? 0) with true by lia. rewrite (max_length_of_rows _ _ _ Hmax). cbn [bind].
  unfold of_rows at 1 2 3 4 5 6; cbn [ids sos eos lens chs].
  rewrite keep_sos_rows, eos_int_rows, map_map, make_meta_map_rows.
  f_equal. apply of_rows_ext. intros r Hr. unfold nonneg in Hn. rewrite Forall_forall in Hn. specialize (Hn r Hr). f_equal.
  - replace (mx + i =? 0) with false by lia. apply andb_false_r.
  - rewrite <- andb_assoc. f_equal. lia.
  - unfold clip. lia.
Qed.

Lemma list_before_start c rs mx k ks : is_max_len rs mx ->
  is_sorted_ascending (map (wrap_neg mx) (k :: ks)) = true -> wrap_neg mx k < 0 ->
  let ps := map (wrap_neg mx) (k :: ks) in
  index_length (of_rows c rs) (LInts (k :: ks))
  = Ok (of_rows c (map (fun r => mkRow (rid r) false
                                   (reos r && existsb (fun p => p <? rlen r) ps && existsb (fun p => rlen r <=? p) ps)
                                   (count_real ps (rlen r)) (rch r)) rs)).
Proof.
  intros Hmax Hs Hk ps.
  unfold index_length, index_length_list. rewrite (max_length_of_rows _ _ _ Hmax). cbn [bind].
  change (make_indices_positive (k :: ks) mx) with ps.
  change (map (wrap_neg mx) (k :: ks)) with ps in Hs. rewrite Hs. cbn [negb].
  destruct (minmax_spec ps) as (mn & mxi & E & H1 & H2 & H3); [unfold ps; discriminate|].
  rewrite E. cbn [bind].
  unfold of_rows at 1 2 3 4 5 6; cbn [ids sos eos lens chs].
  rewrite keep_sos_rows, eos_slice_rows. unfold update_lengths_from_list_of_indices.
  rewrite map_map, make_meta_map_rows.
  f_equal. apply of_rows_ext. intros r _. f_equal.
  - assert (mn < 0). { assert (X : In (wrap_neg mx k) ps) by (unfold ps; now left). specialize (H3 _ X). lia. }
    replace (mn =? 0) with false by lia. apply andb_false_r.
  - rewrite <- !andb_assoc. f_equal. f_equal.
    + apply eq_true_iff_eq. rewrite existsb_exists. split.
      * intros; exists mn; split; auto.
      * intros (p & Hp & Hp2). specialize (H3 _ Hp). lia.
    + apply eq_true_iff_eq. rewrite existsb_exists. split.
      * intros; exists mxi; split; auto.
      * intros (p & Hp & Hp2). specialize (H3 _ Hp). lia.
  - apply count_lt_sum.
Qed.

Lemma no_streams c : (forall i, i < 0 -> index_length (of_rows c []) (LInt i) = Err RuntimeError) /\
  (forall i, 0 <= i -> index_length (of_rows c []) (LInt i) = Ok (of_rows c [])) /\
  (forall s, index_length (of_rows c []) (LSlice s) = Err RuntimeError) /\
  (forall ks, index_length (of_rows c []) (LInts ks) = Err RuntimeError) /\
  (forall b, index_length (of_rows c []) (LMask b) = Err RuntimeError).
Proof.
  split; [|split; [|split; [|split]]]; try (intros; reflexivity).
  - intros i Hi. unfold index_length, index_length_int. replace (i <? 0) with true by lia. reflexivity.
  - intros i Hi. unfold index_length, index_length_int. replace (i <? 0) with false by lia. cbn [bind]. unfold keep_sos. destruct c, (i =? 0); reflexivity.
Qed.

Lemma range_back a b k : k < 0 -> a <= b -> py_range a b k = [].
Proof.
  intros Hk H. unfold py_range. replace (range_len a b k) with O; [reflexivity|]. unfold range_len.
  replace (0 <? k) with false by lia. assert (G : (a - b - k - 1) / - k < 1) by (apply Z.div_lt_upper_bound; lia). lia.
Qed.

Lemma split_length_bad c rs mx : is_max_len rs mx ->
  split_length (of_rows c rs) (SInt 0) = Err ZeroDivisionError /\
  (forall k, k < 0 -> 0 <= mx -> split_length (of_rows c rs) (SInt k) = Ok []) /\
  (forall l, zsum l < mx -> split_length (of_rows c rs) (SList l) = Err ValueError).
Proof.
  intros H. unfold split_length. rewrite (max_length_of_rows _ _ _ H). cbn [bind]. split; [reflexivity|]. split.
  - intros k Hk Hm. unfold split_bounds. replace (k =? 0) with false by lia. cbn [bind]. rewrite range_back by lia. reflexivity.
  - intros l Hl. unfold split_bounds. replace (zsum l <? mx) with true by lia. reflexivity.
Qed.

Lemma split_length_none c sz : split_length (of_rows c []) sz = Err RuntimeError.
Proof. reflexivity. Qed.

Lemma mapM_ok {A B} (f : A -> res B) l : (forall a, In a l -> exists b, f a = Ok b) -> exists bs, mapM f l = Ok bs.
Proof.
  unfold mapM. induction l as [|a l IH]; intros H; [exists []; reflexivity|]. cbn [map seqM]. destruct (H a (or_introl eq_refl)) as [b ->]. cbn [bind].
  destruct IH as [bs ->]; [intros x Hx; apply H; now right|]. exists (b :: bs). reflexivity.
Qed.

Lemma sub_list_ok {A} (l : list A) i j : exists l', sub_list l i j = Ok l'.
Proof. unfold sub_list. pose proof (list_slice_pos l (Some i) (Some j) 1 ltac:(lia)) as H. eexists. etransitivity; [|exact H]. reflexivity. Qed.

Lemma zlen_of_rows c rs : meta_len (of_rows c rs) = zlen rs.
Proof. unfold meta_len, zlen. cbn [ids of_rows]. now rewrite map_length. Qed.

Lemma split_batch_bad c rs :
  split_batch (of_rows c rs) (SInt 0) = Err ValueError /\
  (forall k, k < 0 -> split_batch (of_rows c rs) (SInt k) = Err RuntimeError) /\
  (forall l, zsum l = zlen rs -> Exists (fun k => k < 0) l -> split_batch (of_rows c rs) (SList l) = Err RuntimeError).
Proof.
  split; [reflexivity|]. split.
  - intros k Hk. unfold split_batch. replace (k =? 0) with false by lia. rewrite range_back; [|lia|rewrite zlen_of_rows; unfold zlen; lia].
    cbn [mapM map seqM bind]. unfold tensor_split, tensor_split_int. replace (k <? 0) with true by lia. reflexivity.
  - intros l Hl Hx. unfold split_batch. rewrite zlen_of_rows, Hl, Z.eqb_refl.
    destruct (mapM_ok (fun p : Z * Z => sub_list (ids (of_rows c rs)) (fst p) (snd p)) (zip (init (cumsum (0 :: l))) (tl (cumsum (0 :: l))))) as [bs E].
    { intros p _. apply sub_list_ok. }
    cbv zeta. rewrite E. cbn [bind]. unfold tensor_split, tensor_split_list.
    replace (forallb (fun k => 0 <=? k) l) with false; [reflexivity|]. symmetry. apply not_true_is_false. intros X. rewrite forallb_forall in X.
    apply Exists_exists in Hx. destruct Hx as (k & Hk & Hk'). specialize (X k Hk). lia.
Qed.

(** Theorems of record about StreamMetadata (dreamstream/tensor.py 97-718): C01-C10, C13, C14. *)

From Coq Require Import String List ZArith Bool Lia.
From Coq Require Import ZifyBool.
From Verif Require Import Py Meta MetaSpec MetaProofs MetaLenProofs MetaSplitProofs MetaBatchProofs MetaEdgeProofs.
Import ListNotations.
Open Scope Z_scope.

(** A batch of three streams used in the examples: lengths 5, 2, 0. *)
Definition ex_rows : list row :=
  [mkRow "a" true false 5 7; mkRow "b" true true 2 8; mkRow "c" false true 0 9].

(* ------------------------------------------------------------------ C13 (eager part) *)

(** Metadata is accepted exactly if there are equally many ids, sos, eos and lengths; a rejection is a
    ValueError; an accepted object holds exactly the given fields. *)
Theorem C13_accept_iff i s e l c :
  (length s = length i /\ length e = length i /\ length l = length i -> make_meta i s e l c = Ok (mkMeta i s e l c)) /\
  (~ (length s = length i /\ length e = length i /\ length l = length i) -> make_meta i s e l c = Err ValueError).
Proof. exact (make_meta_iff i s e l c). Qed.
Example C13_ex : make_meta ["a"; "b"]%string [true; true] [false; false] [3; 2] None
               = Ok (mkMeta ["a"; "b"]%string [true; true] [false; false] [3; 2] None)
  /\ make_meta ["a"; "b"]%string [true; true] [false; false] [3] None = Err ValueError.
Proof. split; reflexivity. Qed.

(** Metadata with consistent fields is a list of rows (used to read all statements below). *)
Theorem C13_wf_is_rows m : wf m <-> exists c rs, m = of_rows c rs.
Proof. exact (wf_iff_rows m). Qed.
Example C13_wf_ex : wf (of_rows true ex_rows).
Proof. repeat split. Qed.

(* ------------------------------------------------------------------ C01 *)

Theorem C01_slice_rows c rs a b k : 0 < k ->
  index_batch (of_rows c rs) (BSlice (mkSlice a b (Some k)))
  = Ok (of_rows c (at_positions rs (slice_positions (zlen rs) a b k))).
Proof. exact (index_batch_slice c rs a b k). Qed.
Theorem C01_slice_nostep_rows c rs a b :
  index_batch (of_rows c rs) (BSlice (mkSlice a b None))
  = Ok (of_rows c (at_positions rs (slice_positions (zlen rs) a b 1))).
Proof. exact (index_batch_slice_default c rs a b). Qed.
Theorem C01_slice_bad_step c rs a b k : k <= 0 ->
  index_batch (of_rows c rs) (BSlice (mkSlice a b (Some k))) = Err ValueError.
Proof. exact (index_batch_slice_bad c rs a b k). Qed.
Theorem C01_int_row c rs k : - zlen rs <= k < zlen rs ->
  exists r, nth_error rs (Z.to_nat (k mod zlen rs)) = Some r /\
            index_batch (of_rows c rs) (BInt k) = Ok (of_rows c [r]).
Proof. exact (index_batch_int c rs k). Qed.
Theorem C01_int_out_of_range c rs k : ~ (- zlen rs <= k < zlen rs) ->
  index_batch (of_rows c rs) (BInt k) = Err IndexError.
Proof. exact (index_batch_int_out c rs k). Qed.
Theorem C01_list_rows c rs ks : (forall k, In k ks -> - zlen rs <= k < zlen rs) ->
  index_batch (of_rows c rs) (BInts ks) = Ok (of_rows c (at_positions rs (map (fun k => k mod zlen rs) ks))).
Proof. exact (index_batch_ints c rs ks). Qed.
Theorem C01_list_out_of_range c rs ks k : In k ks -> ~ (- zlen rs <= k < zlen rs) ->
  index_batch (of_rows c rs) (BInts ks) = Err IndexError.
Proof. exact (index_batch_ints_out c rs ks k). Qed.
Theorem C01_mask_rows c rs b : length b = length rs ->
  index_batch (of_rows c rs) (BMask b) = Ok (of_rows c (masked rs b)).
Proof. exact (index_batch_mask c rs b). Qed.
Theorem C01_mask_wrong_size c rs b : length b <> length rs ->
  index_batch (of_rows c rs) (BMask b) = Err IndexError.
Proof. exact (index_batch_mask_bad c rs b). Qed.
Example C01_ex :
  index_batch (of_rows true ex_rows) (BInts [2; -3; 2])
  = Ok (of_rows true [mkRow "c" false true 0 9; mkRow "a" true false 5 7; mkRow "c" false true 0 9])
  /\ index_batch (of_rows true ex_rows) (BSlice (mkSlice (Some (-2)) None None))
  = Ok (of_rows true [mkRow "b" true true 2 8; mkRow "c" false true 0 9])
  /\ index_batch (of_rows true ex_rows) (BMask [true; false; true])
  = Ok (of_rows true [mkRow "a" true false 5 7; mkRow "c" false true 0 9]).
Proof. repeat split; vm_compute; reflexivity. Qed.

(** A Python list of bool is accepted but mixes rows: the ids are taken from positions 0/1. *)
Theorem C01_bool_list_refuted : exists c rs b m',
  length b = length rs /\ index_batch (of_rows c rs) (BBools b) = Ok m' /\ m' <> of_rows c (masked rs b).
Proof.
  exists false, [mkRow "a" true false 5 0; mkRow "b" true true 2 0], [true; true].
  eexists. split; [reflexivity|]. split; [vm_compute; reflexivity|]. discriminate.
Qed.

(* ------------------------------------------------------------------ C02 *)

(** meta[:, a:b]: [row_keep] counts the real selected positions, keeps sos iff position 0 is selected and
    eos iff the last real position is selected. Guard: the ends do not cross (start <= stop). *)
Theorem C02_slice_exact_partial c rs mx a b : 0 <= mx -> is_max_len rs mx ->
  slice_lo mx a <= slice_hi mx b ->
  index_length (of_rows c rs) (LSlice (mkSlice a b (Some 1)))
  = Ok (of_rows c (map (row_keep (slice_positions mx a b 1)) rs)).
Proof. exact (index_slice_step1 c rs mx a b). Qed.
Example C02_ex : is_max_len ex_rows 5 /\ slice_lo 5 (Some (-4)) <= slice_hi 5 (Some 4) /\
  index_length (of_rows true ex_rows) (LSlice (mkSlice (Some (-4)) (Some 4) (Some 1)))
  = Ok (of_rows true [mkRow "a" false false 3 7; mkRow "b" false true 1 8; mkRow "c" false false 0 9]).
Proof.
  split; [split; [exists (mkRow "a" true false 5 7); simpl; auto|]|].
  - intros r [<-|[<-|[<-|[]]]]; simpl; lia.
  - split; [vm_compute; discriminate|vm_compute; reflexivity].
Qed.
Theorem C02_bounds c rs mx a b m' : 0 <= mx -> nonneg rs -> is_max_len rs mx ->
  slice_lo mx a <= slice_hi mx b ->
  index_length (of_rows c rs) (LSlice (mkSlice a b (Some 1))) = Ok m' ->
  Forall (fun n => 0 <= n <= slice_hi mx b - slice_lo mx a) (lens m').
Proof. exact (slice_bounds c rs mx a b m'). Qed.
(** When the ends cross, every row gets the same negative length (nothing is selected by torch). *)
Theorem C02_crossed_refuted c rs mx a b : 0 <= mx -> is_max_len rs mx ->
  slice_hi mx b < slice_lo mx a ->
  index_length (of_rows c rs) (LSlice (mkSlice a b (Some 1)))
  = Ok (of_rows c (map (fun r => mkRow (rid r) false false (slice_hi mx b - slice_lo mx a) (rch r)) rs)).
Proof. exact (index_slice_crossed c rs mx a b). Qed.
Example C02_crossed_ex :
  index_length (of_rows true ex_rows) (LSlice (mkSlice (Some 3) (Some 1) (Some 1)))
  = Ok (of_rows true [mkRow "a" false false (-2) 7; mkRow "b" false false (-2) 8; mkRow "c" false false (-2) 9]).
Proof. vm_compute. reflexivity. Qed.

(* ------------------------------------------------------------------ C03 *)

Theorem C03_strided_open_partial c rs mx a k : 1 < k -> 0 <= mx -> nonneg rs -> is_max_len rs mx ->
  let ps := slice_positions mx a None k in
  index_length (of_rows c rs) (LSlice (mkSlice a None (Some k)))
  = Ok (of_rows c (map (fun r => mkRow (rid r) (rsos r && memb 0 ps)
                                   (reos r && existsb (fun p => p <? rlen r) ps && existsb (fun p => rlen r - 1 <=? p) ps)
                                   (count_real ps (rlen r)) (rch r)) rs)).
Proof. exact (index_slice_strided c rs mx a k). Qed.
Example C03_ex :
  index_length (of_rows true ex_rows) (LSlice (mkSlice (Some 1) None (Some 2)))
  = Ok (of_rows true [mkRow "a" false false 2 7; mkRow "b" false true 1 8; mkRow "c" false false 0 9]).
Proof. vm_compute. reflexivity. Qed.
(** An explicit stop is ignored for steps > 1. *)
Theorem C03_stop_ignored_refuted c rs mx a b k : 1 < k -> 0 <= mx -> is_max_len rs mx ->
  index_length (of_rows c rs) (LSlice (mkSlice a b (Some k)))
  = index_length (of_rows c rs) (LSlice (mkSlice a None (Some k))).
Proof. exact (index_slice_strided_ignores_stop c rs mx a b k). Qed.
(** ... so the lengths are wrong: x[:, 0:2:2] selects one step but reports three for a row of length 5. *)
Theorem C03_wrong_length_refuted : exists c rs mx a b k m', 1 < k /\ nonneg rs /\ is_max_len rs mx /\
  index_length (of_rows c rs) (LSlice (mkSlice a b (Some k))) = Ok m' /\
  lens m' <> map (fun r => count_real (slice_positions mx a b k) (rlen r)) rs.
Proof.
  exists false, [mkRow "a" true false 5 0], 5, (Some 0), (Some 2), 2. eexists.
  split; [lia|]. split; [repeat constructor; simpl; lia|].
  split; [split; [eexists; split; [left; reflexivity|reflexivity]|intros r [<-|[]]; simpl; lia]|].
  split; [vm_compute; reflexivity|]. vm_compute. discriminate.
Qed.
Theorem C03_negative_step_refused c rs mx a b k : k < 0 -> 0 <= mx -> is_max_len rs mx ->
  index_length (of_rows c rs) (LSlice (mkSlice a b (Some k))) = Err NotImplementedError.
Proof. exact (index_slice_neg_step c rs mx a b k). Qed.
Theorem C03_zero_step_refused c rs mx a b : is_max_len rs mx ->
  index_length (of_rows c rs) (LSlice (mkSlice a b (Some 0))) = Err ValueError.
Proof. exact (index_slice_zero_step c rs mx a b). Qed.

(* ------------------------------------------------------------------ C04 *)

Theorem C04_int_step c rs i : 0 <= i ->
  index_length (of_rows c rs) (LInt i)
  = Ok (of_rows c (map (fun r => mkRow (rid r) (rsos r && (i =? 0)) (reos r && (rlen r <=? i + 1))
                                   (if i <? rlen r then 1 else 0) (rch r)) rs)).
Proof. exact (index_int_nonneg c rs i). Qed.
Theorem C04_int_negative c rs mx i : is_max_len rs mx -> i < 0 -> 0 <= mx + i ->
  index_length (of_rows c rs) (LInt i) = index_length (of_rows c rs) (LInt (mx + i)).
Proof. exact (index_int_neg c rs mx i). Qed.
Example C04_ex :
  index_length (of_rows true ex_rows) (LInt (-4))
  = Ok (of_rows true [mkRow "a" false false 1 7; mkRow "b" false true 1 8; mkRow "c" false true 0 9]).
Proof. vm_compute. reflexivity. Qed.

(** A step before the first one is not refused: every row, also an empty one, gets length 1. (On a tensor torch refuses the index
    first.) *)
Theorem C04_before_start_refuted c rs mx i : nonneg rs -> is_max_len rs mx -> mx + i < 0 -> i < 0 ->
  index_length (of_rows c rs) (LInt i)
  = Ok (of_rows c (map (fun r => mkRow (rid r) false (reos r && (rlen r =? 0) && (mx + i =? -1)) 1 (rch r)) rs)).
Proof. exact (int_before_start c rs mx i). Qed.
(** Without streams there is no longest row to count from. *)
Theorem C04_no_streams c : (forall i, i < 0 -> index_length (of_rows c []) (LInt i) = Err RuntimeError) /\
  (forall i, 0 <= i -> index_length (of_rows c []) (LInt i) = Ok (of_rows c [])).
Proof. destruct (no_streams c) as (A & B & _). auto. Qed.
Example C04_edge_ex : is_max_len ex_rows 5 /\
  index_length (of_rows true ex_rows) (LInt (-6))
  = Ok (of_rows true [mkRow "a" false false 1 7; mkRow "b" false false 1 8; mkRow "c" false true 1 9]).
Proof.
  split; [|vm_compute; reflexivity]. split; [exists (mkRow "a" true false 5 7); simpl; auto|]. intros r [<-|[<-|[<-|[]]]]; simpl; lia.
Qed.

(* ------------------------------------------------------------------ C05 *)

Theorem C05_list_exact c rs mx ks : is_max_len rs mx -> ks <> [] ->
  let ps := map (wrap_neg mx) ks in
  ascending ps -> (forall p, In p ps -> 0 <= p) ->
  index_length (of_rows c rs) (LInts ks)
  = Ok (of_rows c (map (fun r => mkRow (rid r) (rsos r && memb 0 ps)
                                   (reos r && existsb (fun p => p <? rlen r) ps && existsb (fun p => rlen r <=? p) ps)
                                   (count_real ps (rlen r)) (rch r)) rs)).
Proof. exact (index_list_exact c rs mx ks). Qed.
(** Positions before the first step are not refused either: they are counted as real data in every row, and sos is lost even if
    position 0 is listed. *)
Theorem C05_before_start_refuted c rs mx k ks : is_max_len rs mx -> ascending (map (wrap_neg mx) (k :: ks)) -> wrap_neg mx k < 0 ->
  let ps := map (wrap_neg mx) (k :: ks) in
  index_length (of_rows c rs) (LInts (k :: ks))
  = Ok (of_rows c (map (fun r => mkRow (rid r) false
                                   (reos r && existsb (fun p => p <? rlen r) ps && existsb (fun p => rlen r <=? p) ps)
                                   (count_real ps (rlen r)) (rch r)) rs)).
Proof. intros Hm Hs. apply list_before_start; auto. apply is_sorted_ascending_spec. exact Hs. Qed.
Example C05_before_start_ex :
  index_length (of_rows true ex_rows) (LInts [-6; 0; 1])
  = Ok (of_rows true [mkRow "a" false false 3 7; mkRow "b" false false 3 8; mkRow "c" false true 1 9]).
Proof. vm_compute. reflexivity. Qed.
Theorem C05_no_streams c : (forall s, index_length (of_rows c []) (LSlice s) = Err RuntimeError) /\
  (forall ks, index_length (of_rows c []) (LInts ks) = Err RuntimeError) /\
  (forall b, index_length (of_rows c []) (LMask b) = Err RuntimeError).
Proof. destruct (no_streams c) as (_ & _ & A & B & D). auto. Qed.
Theorem C05_unsorted_refused c rs mx ks : is_max_len rs mx -> ~ ascending (map (wrap_neg mx) ks) ->
  index_length (of_rows c rs) (LInts ks) = Err IndexError.
Proof. exact (index_list_not_ascending c rs mx ks). Qed.
Theorem C05_mask_is_list c rs b :
  index_length (of_rows c rs) (LMask b) = index_length (of_rows c rs) (LInts (mask_positions b)).
Proof. exact (index_mask_list c rs b). Qed.
Example C05_ex :
  index_length (of_rows true ex_rows) (LInts [0; 1; -1])
  = Ok (of_rows true [mkRow "a" true false 3 7; mkRow "b" true true 2 8; mkRow "c" false false 0 9])
  /\ index_length (of_rows true ex_rows) (LInts [1; 0]) = Err IndexError
  /\ index_length (of_rows true ex_rows) (LMask [true; true; false; false; true])
   = index_length (of_rows true ex_rows) (LInts [0; 1; 4]).
Proof. repeat split; vm_compute; reflexivity. Qed.
(** Listing the positions of a slice can lose the end of stream that the slice keeps: here the last real
    step 1 of the stream is selected both times. *)
Theorem C05_list_loses_eos_refuted : exists rs a b ks m1 m2,
  is_max_len rs 2 /\ slice_positions 2 a b 1 = ks /\
  index_length (of_rows false rs) (LSlice (mkSlice a b (Some 1))) = Ok m1 /\ eos m1 = [true] /\
  index_length (of_rows false rs) (LInts ks) = Ok m2 /\ eos m2 = [false].
Proof.
  exists [mkRow "b" true true 2 0], None, None, [0; 1]. do 2 eexists.
  split; [split; [eexists; split; [left; reflexivity|reflexivity]|intros r [<-|[]]; simpl; lia]|].
  repeat split; vm_compute; reflexivity.
Qed.

(* ------------------------------------------------------------------ C06 *)

(** [pieces_of] (MetaSpec.v): per stream, the pieces add up, sos only on the first non-empty piece, eos exactly
    on the piece holding the last real step. *)
Theorem C06_split_partition c rs mx s : nonneg rs -> is_max_len rs mx -> valid_sections mx s ->
  exists pieces, split_length (of_rows c rs) s = Ok (map (of_rows c) pieces)
    /\ Forall (fun p => length p = length rs) pieces
    /\ (forall i r, nth_error rs i = Some r -> length (column i pieces) = length pieces /\ pieces_of r mx (column i pieces)).
Proof. exact (split_length_pieces c rs mx s). Qed.
Theorem C06_piece_sizes c rs mx s : nonneg rs -> is_max_len rs mx -> valid_sections mx s ->
  exists pieces, split_length (of_rows c rs) s = Ok (map (of_rows c) pieces)
    /\ zlen pieces = match s with SInt k => (mx + k - 1) / k | SList l => zlen l end
    /\ (forall j i p r q, nth_error pieces j = Some p -> nth_error rs i = Some r -> nth_error p i = Some q ->
          rlen q = Z.max 0 (Z.min (rlen r) (piece_hi s j) - piece_lo s j)).
Proof. exact (split_length_sizes c rs mx s). Qed.
(** Other arguments: a chunk size of 0 and sections that do not cover the longest row are refused, a negative chunk size gives no
    pieces at all without an exception, and metadata without streams cannot be split. *)
Theorem C06_wrong_sizes c rs mx : is_max_len rs mx ->
  split_length (of_rows c rs) (SInt 0) = Err ZeroDivisionError /\
  (forall k, k < 0 -> 0 <= mx -> split_length (of_rows c rs) (SInt k) = Ok []) /\
  (forall l, zsum l < mx -> split_length (of_rows c rs) (SList l) = Err ValueError).
Proof. exact (split_length_bad c rs mx). Qed.
Theorem C06_no_streams c sz : split_length (of_rows c []) sz = Err RuntimeError.
Proof. exact (split_length_none c sz). Qed.
Example C06_wrong_sizes_ex :
  split_length (of_rows true ex_rows) (SInt (-2)) = Ok [] /\ split_length (of_rows true ex_rows) (SList [3; 1]) = Err ValueError.
Proof. split; vm_compute; reflexivity. Qed.
Example C06_ex : nonneg ex_rows /\ valid_sections 5 (SInt 3) /\
  split_length (of_rows true ex_rows) (SInt 3)
  = Ok (map (of_rows true)
      [[mkRow "a" true false 3 7; mkRow "b" true true 2 8; mkRow "c" false false 0 9];
       [mkRow "a" false false 2 7; mkRow "b" false false 0 8; mkRow "c" false false 0 9]]).
Proof. repeat split; try (repeat constructor; simpl; lia); vm_compute; try reflexivity; discriminate. Qed.
(** The end of a stream with no data left is carried by no piece at all (the last row of the example). *)
Theorem C06_empty_row_loses_eos_refuted : exists c rs pieces, nonneg rs /\ In true (eos (of_rows c rs)) /\
  split_length (of_rows c rs) (SInt 3) = Ok pieces /\ Forall (fun m => nth 2 (eos m) false = false) pieces
  /\ nth 2 (eos (of_rows c rs)) false = true.
Proof.
  exists true, ex_rows. eexists.
  split; [repeat constructor; simpl; lia|]. split; [simpl; auto|].
  split; [vm_compute; reflexivity|]. split; [repeat constructor|reflexivity].
Qed.

(* ------------------------------------------------------------------ C07 *)

Theorem C07_cat_length_accepts m0 t : t <> [] -> Forall wf (m0 :: t) -> cat_compatible (m0 :: t) ->
  exists m', cat_length (m0 :: t) = Ok m' /\
    ids m' = ids m0 /\ sos m' = sos m0 /\ eos m' = eos (last t m0) /\ chs m' = chs (last t m0) /\
    length (lens m') = length (ids m0) /\
    (forall j, nth j (lens m') 0 = zsum (map (fun m => nth j (lens m) 0) (m0 :: t))).
Proof. exact (cat_length_ok m0 t). Qed.
Theorem C07_cat_length_refuses m0 t : t <> [] -> ~ cat_compatible (m0 :: t) ->
  cat_length (m0 :: t) = Err ValueError.
Proof. exact (cat_length_bad m0 t). Qed.
Theorem C07_single m : cat_length [m] = Ok m.
Proof. exact (eq_refl _). Qed.
Example C07_ex :
  let m0 := of_rows false [mkRow "a" true false 5 0; mkRow "b" true false 5 0] in
  let m1 := of_rows false [mkRow "a" false true 2 0; mkRow "b" false false 3 0] in
  cat_compatible [m0; m1] /\
  cat_length [m0; m1] = Ok (of_rows false [mkRow "a" true true 7 0; mkRow "b" true false 8 0]) /\
  cat_length [m1; m0] = Err ValueError.
Proof.
  split; [|split; vm_compute; reflexivity].
  split; [|split].
  - intros [|[|i]] m q H H0 Hi; simpl in *; try congruence.
    + injection H as <-. injection H0 as <-. split; [reflexivity|]. simpl. intros [?|[?|[]]]; discriminate.
    + destruct i; discriminate.
  - intros [|[|i]] m H Hi; simpl in *; try lia. injection H as <-. simpl. intros [?|[?|[]]]; discriminate.
  - right. intros m [<-|[<-|[]]]; reflexivity.
Qed.

(* ------------------------------------------------------------------ C08 *)

Theorem C08_roundtrip_int c rs n k : 0 < n -> rs <> [] -> (forall r, In r rs -> rlen r = n) -> 1 <= k ->
  bind (split_length (of_rows c rs) (SInt k)) cat_length = Ok (of_rows c rs).
Proof. exact (roundtrip_int c rs n k). Qed.
Theorem C08_roundtrip_sections c rs n secs : 0 < n -> rs <> [] -> (forall r, In r rs -> rlen r = n) ->
  Forall (fun k => 0 < k) secs -> n <= zsum secs -> zsum (removelast secs) < n ->
  bind (split_length (of_rows c rs) (SList secs)) cat_length = Ok (of_rows c rs).
Proof. exact (roundtrip_list c rs n secs). Qed.
(** A stream that ends before the last piece makes concatenation refuse. *)
Theorem C08_short_stream_refused_int c rs mx k : nonneg rs -> is_max_len rs mx -> 1 <= k -> k < mx ->
  (exists r, In r rs /\ reos r = true /\ 0 < rlen r <= k * ((mx - 1) / k)) ->
  bind (split_length (of_rows c rs) (SInt k)) cat_length = Err ValueError.
Proof. exact (refuses_int c rs mx k). Qed.
Theorem C08_short_stream_refused_sections c rs mx secs : nonneg rs -> is_max_len rs mx ->
  Forall (fun k => 0 <= k) secs -> mx <= zsum secs -> (2 <= length secs)%nat ->
  (exists r, In r rs /\ reos r = true /\ 0 < rlen r <= zsum (removelast secs)) ->
  bind (split_length (of_rows c rs) (SList secs)) cat_length = Err ValueError.
Proof. exact (refuses_list c rs mx secs). Qed.
Example C08_ex :
  bind (split_length (of_rows true [mkRow "a" true false 5 7; mkRow "b" false true 5 8]) (SList [2; 4])) cat_length
  = Ok (of_rows true [mkRow "a" true false 5 7; mkRow "b" false true 5 8])
  /\ bind (split_length (of_rows true ex_rows) (SInt 3)) cat_length = Err ValueError.
Proof. split; vm_compute; reflexivity. Qed.

(* ------------------------------------------------------------------ C09 *)

Theorem C09_split_groups c rs k : 1 <= k ->
  exists gs, split_batch (of_rows c rs) (SInt k) = Ok (map (of_rows c) gs) /\ groups_of k rs gs.
Proof. exact (split_batch_groups c rs k). Qed.
Theorem C09_split_sections c rs secs : Forall (fun k => 0 <= k) secs -> zsum secs = zlen rs ->
  exists gs, split_batch (of_rows c rs) (SList secs) = Ok (map (of_rows c) gs)
    /\ List.concat gs = rs /\ map (fun g => zlen g) gs = secs.
Proof. exact (split_batch_sections c rs secs). Qed.
Theorem C09_split_wrong_sections c rs secs : zsum secs <> zlen rs ->
  split_batch (of_rows c rs) (SList secs) = Err ValueError.
Proof. exact (split_batch_list_bad c rs secs). Qed.
(** A size of 0 is a ValueError, a negative size or section a RuntimeError of torch. *)
Theorem C09_wrong_sizes c rs :
  split_batch (of_rows c rs) (SInt 0) = Err ValueError /\
  (forall k, k < 0 -> split_batch (of_rows c rs) (SInt k) = Err RuntimeError) /\
  (forall l, zsum l = zlen rs -> Exists (fun k => k < 0) l -> split_batch (of_rows c rs) (SList l) = Err RuntimeError).
Proof. exact (split_batch_bad c rs). Qed.
Example C09_wrong_sizes_ex : split_batch (of_rows true ex_rows) (SInt (-1)) = Err RuntimeError /\
  split_batch (of_rows true ex_rows) (SList [4; -1]) = Err RuntimeError.
Proof. split; vm_compute; reflexivity. Qed.
Theorem C09_unbind c rs : unbind_batch (of_rows c rs) = Ok (map (fun r => of_rows c [r]) rs).
Proof. exact (unbind_batch_rows c rs). Qed.
(** Each piece is a pair (has chunk indices?, rows); chunk indices survive iff all pieces have them. *)
Theorem C09_cat (l : list (bool * list row)) : l <> [] ->
  cat_batch (map (fun p => of_rows (fst p) (snd p)) l)
  = Ok (of_rows (forallb fst l) (List.concat (map snd l))).
Proof. exact (cat_batch_rows l). Qed.
Theorem C09_roundtrip_int c rs k : rs <> [] -> 1 <= k ->
  bind (split_batch (of_rows c rs) (SInt k)) cat_batch = Ok (of_rows c rs).
Proof. exact (batch_roundtrip_int c rs k). Qed.
Theorem C09_roundtrip_sections c rs secs : secs <> [] -> Forall (fun k => 0 <= k) secs -> zsum secs = zlen rs ->
  bind (split_batch (of_rows c rs) (SList secs)) cat_batch = Ok (of_rows c rs).
Proof. exact (batch_roundtrip_list c rs secs). Qed.
Theorem C09_roundtrip_unbind c rs : rs <> [] ->
  bind (unbind_batch (of_rows c rs)) cat_batch = Ok (of_rows c rs).
Proof. exact (batch_roundtrip_unbind c rs). Qed.
Example C09_ex :
  split_batch (of_rows true ex_rows) (SInt 2)
  = Ok [of_rows true [mkRow "a" true false 5 7; mkRow "b" true true 2 8]; of_rows true [mkRow "c" false true 0 9]]
  /\ split_batch (of_rows true ex_rows) (SList [1; 0; 2])
  = Ok [of_rows true [mkRow "a" true false 5 7]; of_rows true [];
        of_rows true [mkRow "b" true true 2 8; mkRow "c" false true 0 9]]
  /\ bind (split_batch (of_rows true ex_rows) (SList [1; 0; 2])) cat_batch = Ok (of_rows true ex_rows).
Proof. repeat split; vm_compute; reflexivity. Qed.

(* ------------------------------------------------------------------ C10 *)

(** Without chunk indices: equal objects compare True, but different ones raise instead of giving False. *)
Theorem C10_eq_nochunks_partial a b : chs a = None -> chs b = None ->
  (a = b -> meta_eq a b = Ok true) /\ (a <> b -> meta_eq a b = Err AttributeError).
Proof. exact (meta_eq_nochunks a b). Qed.
(** With chunk indices on the left the comparison only looks at chunk indices and the other's lengths. *)
Theorem C10_eq_chunks_refuted a b x : chs a = Some x -> (meta_eq a b = Ok true <-> x = lens b) /\
  (meta_eq a b = Ok false <-> x <> lens b).
Proof. exact (meta_eq_chunks_iff a b x). Qed.
(** ... so an object with chunk indices can differ from itself, and differing objects can be equal. *)
Theorem C10_eq_refuted : (exists a, wf a /\ meta_eq a a = Ok false) /\
  (exists a b, wf a /\ wf b /\ a <> b /\ meta_eq a b = Ok true) /\
  (exists a b, wf a /\ wf b /\ a <> b /\ meta_eq a b = Err AttributeError).
Proof.
  split; [|split].
  - exists (of_rows true ex_rows). split; [apply of_rows_wf|]. reflexivity.
  - exists (of_rows true [mkRow "a" true true 1 4]), (of_rows false [mkRow "b" false false 4 0]).
    split; [apply of_rows_wf|]. split; [apply of_rows_wf|]. split; [discriminate|reflexivity].
  - exists (of_rows false [mkRow "a" true true 1 0]), (of_rows false [mkRow "a" true true 2 0]).
    split; [apply of_rows_wf|]. split; [apply of_rows_wf|]. split; [discriminate|reflexivity].
Qed.

(* ------------------------------------------------------------------ C14 (metadata) *)

Theorem C14_meta_drop_empty c rs :
  drop_empty (of_rows c rs) = Ok (of_rows c (filter (fun r => 0 <? rlen r) rs)).
Proof. exact (drop_empty_rows c rs). Qed.
Example C14_meta_ex : drop_empty (of_rows true ex_rows)
  = Ok (of_rows true [mkRow "a" true false 5 7; mkRow "b" true true 2 8]).
Proof. vm_compute. reflexivity. Qed.

(* ---- assumptions *)
Print Assumptions C13_accept_iff.
Print Assumptions C13_wf_is_rows.
Print Assumptions C01_slice_rows.
Print Assumptions C01_slice_nostep_rows.
Print Assumptions C01_slice_bad_step.
Print Assumptions C01_int_row.
Print Assumptions C01_int_out_of_range.
Print Assumptions C01_list_rows.
Print Assumptions C01_list_out_of_range.
Print Assumptions C01_mask_rows.
Print Assumptions C01_mask_wrong_size.
Print Assumptions C01_bool_list_refuted.
Print Assumptions C02_slice_exact_partial.
Print Assumptions C02_bounds.
Print Assumptions C02_crossed_refuted.
Print Assumptions C03_strided_open_partial.
Print Assumptions C03_stop_ignored_refuted.
Print Assumptions C03_wrong_length_refuted.
Print Assumptions C03_negative_step_refused.
Print Assumptions C03_zero_step_refused.
Print Assumptions C04_int_step.
Print Assumptions C04_int_negative.
Print Assumptions C04_before_start_refuted.
Print Assumptions C04_no_streams.
Print Assumptions C05_list_exact.
Print Assumptions C05_before_start_refuted.
Print Assumptions C05_no_streams.
Print Assumptions C05_unsorted_refused.
Print Assumptions C05_mask_is_list.
Print Assumptions C05_list_loses_eos_refuted.
Print Assumptions C06_split_partition.
Print Assumptions C06_piece_sizes.
Print Assumptions C06_wrong_sizes.
Print Assumptions C06_no_streams.
Print Assumptions C06_empty_row_loses_eos_refuted.
Print Assumptions C07_cat_length_accepts.
Print Assumptions C07_cat_length_refuses.
Print Assumptions C07_single.
Print Assumptions C08_roundtrip_int.
Print Assumptions C08_roundtrip_sections.
Print Assumptions C08_short_stream_refused_int.
Print Assumptions C08_short_stream_refused_sections.
Print Assumptions C09_split_groups.
Print Assumptions C09_split_sections.
Print Assumptions C09_split_wrong_sections.
Print Assumptions C09_wrong_sizes.
Print Assumptions C09_unbind.
Print Assumptions C09_cat.
Print Assumptions C09_roundtrip_int.
Print Assumptions C09_roundtrip_sections.
Print Assumptions C09_roundtrip_unbind.
Print Assumptions C10_eq_nochunks_partial.
Print Assumptions C10_eq_chunks_refuted.
Print Assumptions C10_eq_refuted.
Print Assumptions C14_meta_drop_empty.

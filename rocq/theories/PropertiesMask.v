(** Theorems of record about StreamMetadata indexed with a two-dimensional BoolTensor (dreamstream/tensor.py 462-502): C52. *)

From Coq Require Import String List ZArith Bool Lia.
From Verif Require Import Py Meta MetaSpec MetaProofs MetaLenProofs MaskSpec MetaMaskProofs MaskEdgeProofs.
Import ListNotations.
Open Scope Z_scope.

(** meta[mask] for a mask with one row per stream and T columns that selects real steps only: streams without a
    selected step are dropped, every other one becomes the stream of its selected steps.  Guards: no empty streams, no
    ending streams of length one, and no chunk indices unless every stream is kept. *)
Theorem C52_mask_partial : forall c rs mask T, length mask = length rs -> Forall (fun b => length b = T) mask ->
  Forall (fun r => 1 <= rlen r <= Z.of_nat T) rs -> Exists (fun b => In true b) mask ->
  Forall2 (fun r b => (forall p, In p (mask_positions b) -> p < rlen r) /\ (rlen r = 1 -> reos r = false)) rs mask ->
  c = false \/ Forall (fun b => In true b) mask ->
  index_batch_and_length (of_rows c rs) mask T
  = Ok (of_rows c (map (fun p => row_keep (mask_positions (snd p)) (fst p)) (kept_rows rs mask))).
Proof.
  intros c rs mask T HL HT HR HS HP HC.
  assert (IT : forall b, In true b -> some_true b = true).
  { intros b Hb. unfold some_true. apply existsb_exists. exists true. auto. }
  rewrite (mask2d_exact c rs mask T HL HT HR).
  - f_equal. f_equal. apply map_ext_in. intros [r b] Hp. cbn [fst snd]. apply filter_In in Hp as [Hp _].
    assert (G : (forall p, In p (mask_positions b) -> p < rlen r) /\ (rlen r = 1 -> reos r = false)).
    { clear - HP Hp. induction HP as [|r0 b0 rs mask H HP IH]; [destruct Hp|]. cbn in Hp. destruct Hp as [E|Hp]; auto.
      injection E as <- <-. exact H. }
    now apply mask_row_keep.
  - apply Exists_exists in HS as (b & Hb & Ht). apply existsb_exists. exists b. auto.
  - destruct HC as [->|HC]; [now left|right]. apply forallb_forall. rewrite Forall_forall in HC. auto.
Qed.
(** Without the guards on what is selected: the start flag and the length are still right; the end flag is kept exactly if
    some selected step, real or padding, is at or after the last real one, and not for a stream of length one whose step
    is selected. *)
Theorem C52_mask_exact : forall c rs mask T, length mask = length rs -> Forall (fun b => length b = T) mask ->
  Forall (fun r => 1 <= rlen r <= Z.of_nat T) rs -> existsb some_true mask = true ->
  c = false \/ forallb some_true mask = true ->
  index_batch_and_length (of_rows c rs) mask T
  = Ok (of_rows c (map (fun p => mask_row (mask_positions (snd p)) (fst p)) (kept_rows rs mask))).
Proof. exact mask2d_exact. Qed.
(** A mask that selects nothing gives a batch without streams. *)
Theorem C52_nothing : forall c rs mask T, T <> 0%nat -> existsb some_true mask = false ->
  index_batch_and_length (of_rows c rs) mask T = Ok (of_rows false []).
Proof. exact mask2d_nothing. Qed.
Example C52_ex :
  index_batch_and_length (of_rows false [mkRow "a" true true 4 0; mkRow "b" true false 2 0; mkRow "c" false true 3 0])
    [[true; false; true; true]; [false; false; false; false]; [false; true; true; false]] 4
  = Ok (of_rows false [mkRow "a" true true 3 0; mkRow "c" false true 2 0]) /\
  index_batch_and_length (of_rows true [mkRow "a" true true 4 7]) [[false; true; true; false]] 4
  = Ok (of_rows true [mkRow "a" false false 2 7]).
Proof. split; vm_compute; reflexivity. Qed.

(** Every guard is needed: a stream of length one loses its end flag though its only step is kept; selecting padding only
    keeps the end flag of a stream of which no real step is left; an empty stream gets a positive length. *)
Theorem C52_guards_refuted :
  index_batch_and_length (of_rows false [mkRow "a" true true 1 0]) [[true; false]] 2 = Ok (of_rows false [mkRow "a" true false 1 0]) /\
  index_batch_and_length (of_rows false [mkRow "a" true true 2 0]) [[false; false; true]] 3 = Ok (of_rows false [mkRow "a" false true 0 0]) /\
  index_batch_and_length (of_rows false [mkRow "a" true false 0 0]) [[true; true; true]] 3 = Ok (of_rows false [mkRow "a" true false 3 0]).
Proof. split; [|split]; vm_compute; reflexivity. Qed.
(** With chunk indices, dropping a stream always fails (the indices are masked a second time). *)
Theorem C52_chunk_indices_refuted : forall rs mask T, length mask = length rs -> Forall (fun b => length b = T) mask ->
  Forall (fun r => 1 <= rlen r <= Z.of_nat T) rs -> existsb some_true mask = true -> forallb some_true mask = false ->
  index_batch_and_length (of_rows true rs) mask T = Err IndexError.
Proof. exact mask2d_chunks_fail. Qed.
Example C52_chunk_indices_ex :
  index_batch_and_length (of_rows true [mkRow "a" true false 2 5; mkRow "b" true false 2 5]) [[true; true]; [false; false]] 2 = Err IndexError.
Proof. vm_compute. reflexivity. Qed.

(** A mask of one row for several streams is used for each of them; with chunk indices it fails. *)
Theorem C52_one_row : forall c rs b, (2 <= length rs)%nat -> In true b -> Forall (fun r => 1 <= rlen r <= zlen b) rs ->
  index_batch_and_length (of_rows c rs) [b] (length b)
  = if c then Err IndexError else Ok (of_rows false (map (mask_row (mask_positions b)) rs)).
Proof. exact mask2d_one_row. Qed.
(** A mask of one column, if some stream has more than one step, keeps whole streams or drops them, chunk indices included. *)
Theorem C52_one_column : forall c rs bs mx, length bs = length rs -> is_max_len rs mx -> 1 < mx -> In true bs ->
  index_batch_and_length (of_rows c rs) (map (fun b => [b]) bs) 1
  = Ok (of_rows c (map fst (filter snd (combine rs bs)))).
Proof. exact mask2d_one_column. Qed.
(** One true entry for several streams, some with more than one step, keeps everything. *)
Theorem C52_single_entry : forall c rs mx, (2 <= length rs)%nat -> is_max_len rs mx -> 1 < mx ->
  index_batch_and_length (of_rows c rs) [[true]] 1 = Ok (of_rows c rs).
Proof. exact mask2d_single. Qed.
(** Masks of any other number of rows, and masks of at least two columns but fewer than a kept stream has steps, are
    refused. *)
Theorem C52_wrong_size : forall c rs mask T,
  (T <> 0%nat -> length mask <> length rs -> length mask <> 1%nat -> existsb some_true mask = true ->
    exists e, index_batch_and_length (of_rows c rs) mask T = Err e) /\
  (length mask = length rs -> Forall (fun b => length b = T) mask -> (2 <= T)%nat -> Forall (fun r => 1 <= rlen r) rs ->
    Exists (fun p => Z.of_nat T < rlen (fst p)) (kept_rows rs mask) ->
    index_batch_and_length (of_rows c rs) mask T = Err IndexError).
Proof. intros c rs mask T. split; [apply mask2d_wrong_rows|apply mask2d_too_few_columns]. Qed.
Example C52_sizes_ex :
  let rs := [mkRow "a" true true 3 4; mkRow "b" false true 2 5; mkRow "c" true false 3 6] in
  index_batch_and_length (of_rows false rs) [[false; true; true]] 3
  = Ok (of_rows false [mkRow "a" false true 2 0; mkRow "b" false true 1 0; mkRow "c" false false 2 0]) /\
  index_batch_and_length (of_rows true rs) [[false; true; true]] 3 = Err IndexError /\
  index_batch_and_length (of_rows true rs) [[true]; [false]; [true]] 1
  = Ok (of_rows true [mkRow "a" true true 3 4; mkRow "c" true false 3 6]) /\
  index_batch_and_length (of_rows true rs) [[true]] 1 = Ok (of_rows true rs) /\
  index_batch_and_length (of_rows false rs) [[true; true; true]; [true; true; true]] 3 = Err RuntimeError /\
  index_batch_and_length (of_rows false rs) [[true; true]; [true; true]; [true; true]] 2 = Err IndexError.
Proof. vm_compute. auto 10. Qed.

(* ---- assumptions *)
Print Assumptions C52_mask_partial.
Print Assumptions C52_mask_exact.
Print Assumptions C52_nothing.
Print Assumptions C52_guards_refuted.
Print Assumptions C52_chunk_indices_refuted.
Print Assumptions C52_one_row.
Print Assumptions C52_one_column.
Print Assumptions C52_single_entry.
Print Assumptions C52_wrong_size.

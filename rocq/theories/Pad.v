(** Model of batches of streams and of padding / unpadding:
    dreamstream/nn/utils/pad_sequence.py, dreamstream/utils/operations.py and
    StreamTensor.unpad_sequence (dreamstream/tensor.py 902-908).

    A batch tensor with one batch, one length and any other dimensions is the list of its rows, each row the list
    of its columns (one column = the values of all other dimensions at one time step, an arbitrary type [V]);
    [bw] is the size of the length dimension. The order of the dimensions in memory is not modelled
    (permute/align_to only rename them, see Named.v), nor is the list of names. *)

From Coq Require Import String List ZArith Bool Lia.
From Verif Require Import Py Meta.
Import ListNotations.
Open Scope Z_scope.

(** utils/operations.py 8-43 (sequence_mask). `T = max_len or ceil(max)`: a max_len of 0 counts as "not given";
    max() of an empty tensor and arange of a negative number raise RuntimeError. dtype and device not modelled. *)
Definition sequence_mask (seq_lens : list Z) (max_len : option Z) (invert : bool) : res (list (list bool)) :=
  do T <- match max_len with
          | Some n => if n =? 0 then zmax seq_lens else Ok n
          | None => zmax seq_lens
          end;
  if T <? 0 then Err RuntimeError
  else
    let step_ids := map Z.of_nat (seq 0 (Z.to_nat T)) in
    Ok (map (fun n => map (fun t => if invert then n <=? t else t <? n) step_ids) seq_lens).

Section Pad.
Context {V : Type}.

(** A StreamTensor with a batch dimension (tensor.py 756-766). *)
Record batch : Type := mkBatch { bw : nat; bd : list (list V); bm : meta }.

(** A StreamTensor without batch dimension, as produced by unbind (overrides.py 142-163). *)
Record single : Type := mkSingle { sd : list V; sm : meta }.

(** torch.nn.utils.rnn.pad_sequence (pad_sequence.py 35): rows filled with zero columns [z] up to the longest;
    RuntimeError for an empty list. *)
Definition max_nat (l : list nat) : nat := fold_right Nat.max 0%nat l.
Definition pad_to (z : V) (w : nat) (r : list V) : list V := r ++ repeat z (w - length r).
Definition torch_pad_sequence (z : V) (rows : list (list V)) : res (nat * list (list V)) :=
  match rows with
  | [] => Err RuntimeError
  | _ => let w := max_nat (map (@length V) rows) in Ok (w, map (pad_to z w) rows)
  end.

(** pad_sequence.py 10-39 (pad_chunks). The sequences are given with the length dimension first (27-30 permutes
    them so); names are those of the sequences. The check of the number of ids and flags is made here; in the code it is
    made when the metadata is first used (Lazy.v). *)
Definition pad_chunks (z : V) (sequences : list (list V)) (names : list string)
    (i : list string) (s e : list bool) : res batch :=
  if existsb (String.eqb "B") names then Err ValueError                     (* 22-23 *)
  else if negb (existsb (String.eqb "L") names) then Err ValueError         (* 24-25 *)
  else
    do '(w, rows) <- torch_pad_sequence z sequences;                        (* 35 *)
    do m <- make_meta i s e (map (fun t => zlen t) sequences) None;         (* 34, 38 *)
    Ok (mkBatch w rows m).

(** pad_sequence.py 42-45 (pad_full_sequence). *)
Definition pad_full_sequence (z : V) (sequences : list (list V)) (names : list string) (i : list string) : res batch :=
  pad_chunks z sequences names i (map (fun _ => true) sequences) (map (fun _ => true) sequences).

(** pad_sequence.py 48-55 (pad_stream_tensor). The chunks have names (F, L) or any others without B;
    an empty list fails in cat_batch. *)
Definition pad_stream_tensor (z : V) (xs : list single) : res batch :=
  do m <- cat_batch (map sm xs);
  pad_chunks z (map sd xs) ["F"; "L"]%string (ids m) (sos m) (eos m).

(** overrides.py 576-589 (narrow) along the length dimension of a chunk without batch dimension:
    torch raises RuntimeError if start + length exceeds the size (a negative start counts from the end). *)
Definition narrow_single (x : single) (start len : Z) : res single :=
  let n := zlen (sd x) in
  let st := if start <? 0 then start + n else start in
  if (st <? 0) || (n <? st) then Err IndexError
  else if (len <? 0) || (n <? st + len) then Err RuntimeError
  else
    do m <- index_pair (sm x) (BSlice (mkSlice None None None))
                              (LSlice (mkSlice (Some start) (Some (start + len)) None));
    Ok (mkSingle (firstn (Z.to_nat len) (skipn (Z.to_nat st) (sd x))) m).

(** overrides.py 142-163 (unbind) along the batch dimension: rows with the metadata of unbind_batch. *)
Definition unbind_rows (x : batch) : res (list single) :=
  do ms <- unbind_batch (bm x);
  if Nat.eqb (length (bd x)) (length ms)
  then Ok (map (fun p => mkSingle (fst p) (snd p)) (zip (bd x) ms))
  else Err AssertionError.

(** x.meta.lengths.item(): RuntimeError unless there is exactly one element. *)
Definition the_length (m : meta) : res Z := match lens m with [n] => Ok n | _ => Err RuntimeError end.

(** tensor.py 902-908 (unpad_sequence). *)
Definition unpad_sequence (x : batch) : res (list single) :=
  do xs <- unbind_rows x;
  mapM (fun s => do n <- the_length (sm s); narrow_single s 0 n) xs.

End Pad.
Arguments batch V : clear implicits.
Arguments single V : clear implicits.

(** Vocabulary for the statements about streaming convolutions. Uses only the data types of the model. *)

From Coq Require Import String List ZArith Bool Lia.
From Verif Require Import Py Meta MetaSpec Pad Conv.
Import ListNotations.
Open Scope nat_scope.

Section ConvSpec.
Context {V : Type}.

(** One chunk of a stream: id, start / end flag, its real columns and its chunk index. *)
Record chunk : Type := mkChunk { cid : string; csos : bool; ceos : bool; cdat : list V; cch : Z }.

(** The batch tensor of width [w] holding the given chunks, right-padded with zero columns [z];
    [h] tells whether chunk indices are present. *)
Definition batch_with (z : V) (w : nat) (h : bool) (rs : list chunk) : batch V :=
  mkBatch w (map (fun r => cdat r ++ repeat z (w - length (cdat r))) rs)
          (of_rows h (map (fun r => mkRow (cid r) (csos r) (ceos r) (Z.of_nat (length (cdat r))) (cch r)) rs)).

(** Number of columns of the longest chunk. *)
Definition longest (rs : list chunk) : nat := fold_right Nat.max 0 (map (fun r => length (cdat r)) rs).

(** A tight batch: no spare columns. *)
Definition batch_of (z : V) (h : bool) (rs : list chunk) : batch V := batch_with z (longest rs) h rs.

(** The module parameters torch accepts. *)
Definition valid_cfg (c : conv_cfg V) : Prop := 1 <= ksize c /\ 1 <= dilat c /\ 1 <= strd c.

(** Description of a batch tensor: width, presence of chunk indices, rows. *)
Record tens : Type := mkTens { tw : nat; th : bool; trows : list chunk }.
Definition tensor_of (z : V) (t : tens) : batch V := batch_with z (tw t) (th t) (trows t).

(** No spare columns. *)
Definition tight (t : tens) : Prop := tw t = longest (trows t).

(** The widths the padding code can cope with: wide enough for the rows, and if all rows start but not all end, not wider
    than some row with its end padding. A tight tensor always qualifies. *)
Definition fits (c : conv_cfg V) (t : tens) : Prop :=
  longest (trows t) <= tw t /\
  (0 < padn c -> (forall r, In r (trows t) -> csos r = true) -> (exists r, In r (trows t) /\ ceos r = false) ->
   exists r, In r (trows t) /\ tw t <= length (cdat r) + (if ceos r then padn c else 0)).

(** Number of columns spanned by the kernel. *)
Definition kspan (c : conv_cfg V) : nat := dilat c * (ksize c - 1) + 1.

(** Number of kernel positions that fit into [n] columns. *)
Definition nwin (c : conv_cfg V) (n : nat) : nat :=
  if n <? kspan c then 0 else (n - kspan c) / strd c + 1.

(** Convolution of a whole sequence, no padding: the i-th output column is the kernel applied to columns
    i*stride, i*stride + dilation, ... *)
Definition window (c : conv_cfg V) (l : list V) (i : nat) : list V :=
  map (fun j => nth (i * strd c + j * dilat c) l (zin c)) (seq 0 (ksize c)).
Definition conv_seq (c : conv_cfg V) (l : list V) : list V :=
  map (fun i => kfun c (window c l i)) (seq 0 (nwin c (length l))).

(** The unmodified module on a whole sequence: zero padding on both sides. *)
Definition zeros (c : conv_cfg V) : list V := repeat (zin c) (padn c).
Definition offline (c : conv_cfg V) (x : list V) : list V := conv_seq c (zeros c ++ x ++ zeros c).

(** Chunk of the same stream with other data. *)
Definition set_data (r : chunk) (d : list V) : chunk := mkChunk (cid r) (csos r) (ceos r) d (cch r).

(** What a stream has delivered, zero padding included: nothing before it starts. *)
Definition received (c : conv_cfg V) (past : list V) (r : chunk) : list V :=
  (if csos r then zeros c else past) ++ cdat r ++ (if ceos r then zeros c else []).

(** The output due for a chunk: what the convolution of everything received adds to the convolution of what was
    received before. *)
Definition due (c : conv_cfg V) (past : list V) (r : chunk) : list V :=
  skipn (if csos r then 0 else nwin c (length past)) (conv_seq c (received c past r)).

(** Some output is due: the first kernel position not yet used fits into what has been received. *)
Definition spans (c : conv_cfg V) (past : list V) (r : chunk) : Prop :=
  (if csos r then 0 else nwin c (length past)) * strd c + kspan c <= length (received c past r).

(** Per-stream ideal run: the chunks of one stream with their data replaced by the output due. *)
Fixpoint ideal (c : conv_cfg V) (past : list V) (l : list chunk) : list chunk :=
  match l with
  | [] => []
  | r :: t => set_data r (due c past r) :: ideal c (if ceos r then [] else received c past r) t
  end.

(** What a stream has received after the chunks [l], zero padding included; None if it is not running. *)
Definition so_far (past : option (list V)) : list V := match past with Some A => A | None => [] end.
Fixpoint pending (c : conv_cfg V) (past : option (list V)) (l : list chunk) : option (list V) :=
  match l with
  | [] => past
  | r :: t => pending c (if ceos r then None else Some (received c (so_far past) r)) t
  end.

(** The chunks of stream [i] in a schedule of batches, in order. *)
Definition stream_of (i : string) (sched : list (list chunk)) : list chunk :=
  filter (fun r => String.eqb (cid r) i) (List.concat sched).

(** A stream obeys the protocol if it starts with a start chunk, has no second one before it has ended, and after an
    end starts anew. [o] tells whether the stream is running. *)
Fixpoint protocol (o : bool) (l : list chunk) : Prop :=
  match l with
  | [] => True
  | r :: t => csos r = negb o /\ protocol (negb (ceos r)) t
  end.

(** A well-formed schedule: batches are not empty, within a batch the ids differ, every stream obeys the protocol, and a
    chunk that starts or ends a stream is not empty. *)
Definition good_batch (rs : list chunk) : Prop :=
  rs <> [] /\ NoDup (map cid rs) /\ Forall (fun r => csos r = true \/ ceos r = true -> cdat r <> []) rs.
Definition good_schedule (sched : list (list chunk)) : Prop :=
  Forall good_batch sched /\ forall i, protocol false (stream_of i sched).

(** The last chunk received for the stream did not end it. *)
Definition open_stream (l : list chunk) : Prop := exists l0 r, l = l0 ++ [r] /\ ceos r = false.

(** Like [good_schedule], but a stream may also start anew while it is open, provided that all rows of that batch
    start. *)
Definition restarting_schedule (sched : list (list chunk)) : Prop :=
  Forall good_batch sched /\
  forall k rs r, nth_error sched k = Some rs -> In r rs ->
    (csos r = false -> open_stream (stream_of (cid r) (firstn k sched))) /\
    (csos r = true -> ~ open_stream (stream_of (cid r) (firstn k sched)) \/ forall q, In q rs -> csos q = true).

(** A chunk with the same id, flags and chunk index, whatever its data. *)
Definition follows (r q : chunk) : Prop := cid q = cid r /\ csos q = csos r /\ ceos q = ceos r /\ cch q = cch r.

(** Complete stream: start flag on the first chunk only, end flag on the last one only. *)
Definition complete (l : list chunk) : Prop :=
  l <> [] /\ (forall k r, nth_error l k = Some r -> csos r = (k =? 0) /\ ceos r = (S k =? length l)).
(** Running stream: started, not ended. *)
Definition running (l : list chunk) : Prop :=
  l <> [] /\ (forall k r, nth_error l k = Some r -> csos r = (k =? 0) /\ ceos r = false).

(** All data of a list of chunks. *)
Definition data_of (l : list chunk) : list V := List.concat (map cdat l).

End ConvSpec.
Arguments chunk V : clear implicits.
Arguments tens V : clear implicits.

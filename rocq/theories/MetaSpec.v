(** Vocabulary for the statements about StreamMetadata: a batch is a list of rows.
    Nothing here uses the operations of Meta.v, only the record type. *)

From Coq Require Import String List ZArith Bool Lia.
From Verif Require Import Py Meta.
Import ListNotations.
Open Scope Z_scope.

(** One stream of a batch. *)
Record row : Type := mkRow { rid : string; rsos : bool; reos : bool; rlen : Z; rch : Z }.

(** The metadata object whose rows are [rs]; [c] tells whether chunk indices are present. *)
Definition of_rows (c : bool) (rs : list row) : meta :=
  mkMeta (map rid rs) (map rsos rs) (map reos rs) (map rlen rs) (if c then Some (map rch rs) else None).

(** All fields describe the same number of streams. *)
Definition wf (m : meta) : Prop :=
  length (sos m) = length (ids m) /\ length (eos m) = length (ids m) /\
  length (lens m) = length (ids m) /\
  match chs m with None => True | Some c => length c = length (ids m) end.

(** Real lengths are never negative. *)
Definition nonneg (rs : list row) : Prop := Forall (fun r => 0 <= rlen r) rs.

(** [mx] is the length of the longest row of a non-empty batch. *)
Definition is_max_len (rs : list row) (mx : Z) : Prop :=
  (exists r, In r rs /\ rlen r = mx) /\ (forall r, In r rs -> rlen r <= mx).

(** Position denoted by one end of a Python slice over [n] positions. *)
Definition slice_end (n : Z) (o : option Z) (default : Z) : Z :=
  match o with
  | None => default
  | Some v => if v <? 0 then Z.max 0 (n + v) else Z.min v n
  end.
Definition slice_lo (n : Z) (a : option Z) : Z := slice_end n a 0.
Definition slice_hi (n : Z) (b : option Z) : Z := slice_end n b n.

(** The positions 0, 1, ..., n-1. *)
Definition positions (n : Z) : list Z := map Z.of_nat (seq 0 (Z.to_nat n)).

(** Positions selected by [a:b:k] (k > 0) among [n]: those p with lo <= p < hi and p - lo a multiple of k. *)
Definition in_slice (n : Z) (a b : option Z) (k : Z) (p : Z) : bool :=
  (slice_lo n a <=? p) && (p <? slice_hi n b) && ((p - slice_lo n a) mod k =? 0).
Definition slice_positions (n : Z) (a b : option Z) (k : Z) : list Z :=
  filter (in_slice n a b k) (positions n).

(** Elements of a list at given positions (positions outside the list contribute nothing). *)
Definition at_positions {A} (l : list A) (ps : list Z) : list A :=
  flat_map (fun p => match nth_error l (Z.to_nat p) with Some a => [a] | None => [] end) ps.

(** Number of listed positions that hold real data in a row of length [len]. *)
Definition count_real (ps : list Z) (len : Z) : Z := zlen (filter (fun p => p <? len) ps).

(** Membership of a position, as a boolean. *)
Definition memb (p : Z) (ps : list Z) : bool := existsb (Z.eqb p) ps.

(** The row obtained by keeping only the time steps [ps]: it counts the real steps kept, is a start iff
    step 0 is kept, and an end iff the last real step is kept. *)
Definition row_keep (ps : list Z) (r : row) : row :=
  mkRow (rid r) (rsos r && memb 0 ps) (reos r && memb (rlen r - 1) ps) (count_real ps (rlen r)) (rch r).

(** Elements whose mask entry is true. *)
Definition masked {A} (l : list A) (m : list bool) : list A := map fst (filter snd (combine l m)).

(** Consecutive intervals from [a] to [e]. *)
Fixpoint chain (a : Z) (bs : list (Z * Z)) (e : Z) : Prop :=
  match bs with
  | [] => a = e
  | (x, y) :: t => x = a /\ x <= y /\ chain y t e
  end.

(** The i-th row of every piece. *)
Definition column (i : nat) (pieces : list (list row)) : list row :=
  flat_map (fun p => match nth_error p i with Some r => [r] | None => [] end) pieces.

(** Total length of a list of rows. *)
Definition total_len (l : list row) : Z := zsum (map rlen l).

(** [col] is a sequence of consecutive pieces of the stream [r] (mx > 0: the batch has data). *)
Definition pieces_of (r : row) (mx : Z) (col : list row) : Prop :=
  Forall (fun p => rid p = rid r /\ rch p = rch r /\ 0 <= rlen p) col
  /\ total_len col = rlen r
  /\ (* eos exactly on the piece that contains the last real step *)
     (forall j p, nth_error col j = Some p ->
        (reos p = true <-> reos r = true /\ 0 < rlen p /\ total_len (firstn (S j) col) = rlen r))
  /\ (* sos only on a piece with nothing real before it *)
     (forall j p, nth_error col j = Some p -> rsos p = true -> rsos r = true /\ total_len (firstn j col) = 0)
  /\ (* and for a non-empty stream exactly on its first non-empty piece *)
     (0 < rlen r -> forall j p, nth_error col j = Some p ->
        (rsos p = true <-> rsos r = true /\ 0 < rlen p /\ total_len (firstn j col) = 0))
  /\ length (filter rsos col) = (if rsos r && (0 <? mx) then 1%nat else 0%nat).

(** Sizes of the pieces asked for: chunk size [k], or explicit sections. *)
Definition valid_sections (mx : Z) (s : ssize) : Prop :=
  match s with
  | SInt k => 1 <= k
  | SList l => Forall (fun k => 0 <= k) l /\ mx <= zsum l
  end.

(** Bounds of the j-th piece. *)
Definition piece_lo (s : ssize) (j : nat) : Z :=
  match s with SInt k => Z.of_nat j * k | SList l => zsum (firstn j l) end.
Definition piece_hi (s : ssize) (j : nat) : Z := piece_lo s (S j).

(** Pieces that can be put together along length: same streams, only the first starts, only the last ends,
    chunk indices everywhere or nowhere. *)
Definition cat_compatible (ms : list meta) : Prop :=
  (forall i m m0, nth_error ms i = Some m -> nth_error ms 0 = Some m0 -> i <> 0%nat ->
      ids m = ids m0 /\ ~ In true (sos m)) /\
  (forall i m, nth_error ms i = Some m -> (S i < length ms)%nat -> ~ In true (eos m)) /\
  ((forall m, In m ms -> chs m <> None) \/ (forall m, In m ms -> chs m = None)).

(** A negative time step counts from the end of the longest row. *)
Definition wrap_neg (mx k : Z) : Z := if k <? 0 then mx + k else k.

(** Chronological order. *)
Definition ascending (l : list Z) : Prop :=
  forall i j a b, nth_error l i = Some a -> nth_error l j = Some b -> (i <= j)%nat -> a <= b.

(** Positions at which a mask is true. *)
Definition mask_positions (b : list bool) : list Z :=
  filter (fun p => nth (Z.to_nat p) b false) (positions (zlen b)).

(** Cut of a list into consecutive groups of [k]: every group has [k] elements except possibly the last. *)
Definition groups_of {A} (k : Z) (l : list A) (gs : list (list A)) : Prop :=
  List.concat gs = l /\ Forall (fun g => 1 <= zlen g <= k) gs /\ Forall (fun g => zlen g = k) (removelast gs).

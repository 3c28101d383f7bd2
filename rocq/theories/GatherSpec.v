(** Vocabulary for the statements about gather, take and scatter on StreamTensors.
    Nothing here uses the operations of Gather.v, only its types. *)

From Coq Require Import String List ZArith Bool Lia.
From Verif Require Import Py Meta MetaSpec Named NamedSpec Gather.
Import ListNotations.
Open Scope Z_scope.

(** Position [p] with coordinate [k] replaced by [i]. *)
Definition put (k : nat) (i : Z) (p : list Z) : list Z := firstn k p ++ i :: skipn (S k) p.

(** An index tensor that may be used along dimension [k] of a tensor of sizes [s]: same rank, not larger except along
    [k], entries that exist. *)
Record ix_fits (k : nat) (s : list Z) (ix : @tensor Z) : Prop := mkIxFits {
  if_rank : length (shp ix) = length s;
  if_sizes : forall d m n, nth_error (shp ix) d = Some m -> nth_error s d = Some n -> 0 <= m /\ (d <> k -> m <= n);
  if_entries : forall p n, in_range (shp ix) p -> nth_error s k = Some n -> 0 <= at_ ix p < n
}.

(** [t'] has the sizes of the index and takes every value from the same place of [t], apart from dimension [k]. *)
Definition gathered {V} (k : nat) (t : @tensor V) (ix : @tensor Z) (t' : @tensor V) : Prop :=
  shp t' = shp ix /\ (forall p, in_range (shp ix) p -> at_ t' p = at_ t (put k (at_ ix p) p)).

(** [r'] is the stream [r] without the steps from [n] on: a stream with data starts if it did and anything is left, and
    ends if it did and everything is left. *)
Definition cut_row (n : Z) (r r' : row) : Prop :=
  rid r' = rid r /\ rch r' = rch r /\ rlen r' = Z.min n (rlen r) /\
  (rsos r' = true -> rsos r = true) /\ (reos r' = true -> reos r = true) /\
  (0 < rlen r -> rsos r' = rsos r && (0 <? n) /\ reos r' = reos r && (rlen r <=? n)).

(** Sizes that can be broadcast to each other: equal, or one of them 1; and the result. *)
Inductive bcast1 : Z -> Z -> Z -> Prop :=
| BC_same a : bcast1 a a a
| BC_left b : bcast1 1 b b
| BC_right a : bcast1 a 1 a.

(** A position of the broadcast tensor, seen in a tensor of sizes [s]. *)
Fixpoint seen_at (s p : list Z) : list Z :=
  match s, p with
  | n :: s', i :: p' => (if n =? 1 then 0 else i) :: seen_at s' p'
  | _, _ => []
  end.

(** Like [ix_fits], but with broadcasting in both directions instead of smaller sizes. *)
Record ix_broadcasts (k : nat) (s : list Z) (ix : @tensor Z) : Prop := mkIxBroadcasts {
  ib_rank : length (shp ix) = length s;
  ib_sizes : forall d m n, nth_error (shp ix) d = Some m -> nth_error s d = Some n -> 0 <= m /\ (d <> k -> exists r, bcast1 n m r);
  ib_entries : forall p n, in_range (shp ix) p -> nth_error s k = Some n -> 0 <= at_ ix p < n
}.
Definition gathered_bcast {V} (k : nat) (t : @tensor V) (ix : @tensor Z) (t' : @tensor V) : Prop :=
  length (shp t') = length (shp t) /\
  (forall d m n, nth_error (shp ix) d = Some m -> nth_error (shp t) d = Some n ->
     exists r, nth_error (shp t') d = Some r /\ (d = k -> r = m) /\ (d <> k -> bcast1 n m r)) /\
  (forall p, in_range (shp t') p -> at_ t' p = at_ t (put k (at_ ix (seen_at (shp ix) p)) (seen_at (shp t) p))).

(** Two positions that agree except perhaps in dimension [k]. *)
Definition agree_but (k : nat) (p q : list Z) : Prop := length p = length q /\ (forall d, d <> k -> nth d p 0 = nth d q 0).

(** The element [q] of src goes to position [p]. *)
Definition arrives (k : nat) (ix : @tensor Z) (p q : list Z) : Prop := in_range (shp ix) q /\ put k (at_ ix q) q = p.

(** Every value of [t'] combines the old value with the elements arriving there, each once, in some order. *)
Definition scattered {V} (red : V -> list V -> V) (k : nat) (t : @tensor V) (ix : @tensor Z) (src t' : @tensor V) : Prop :=
  shp t' = shp t /\
  (forall p, in_range (shp t) p -> exists qs, NoDup qs /\ (forall q, In q qs <-> arrives k ix p q) /\
     at_ t' p = red (at_ t p) (map (at_ src) qs)).

(** Sizes within sizes. *)
Definition within (a b : list Z) : Prop := Forall2 Z.le a b.

(** The position [p] is element number [i] of a tensor of sizes [s]. *)
Definition element (s : list Z) (i : Z) (p : list Z) : Prop := in_range s p /\ block_pos s p = i.

(** What can be passed to a torch function: [occurs v m n]: a StreamTensor with metadata [m] and names [n] is among
    it, at any depth (as a value of a mapping, not as a key). *)
Inductive occurs {T} : value T -> meta -> list dname -> Prop :=
| Oc_here t m n : occurs (VStream t m n) m n
| Oc_seq b l v m n : In v l -> occurs v m n -> occurs (VSeq b l) m n
| Oc_map l k v m n : In (k, v) l -> occurs v m n -> occurs (VMap l) m n.

(** The same structure, with the StreamTensors replaced by their data. *)
Inductive stripped {T} : value T -> value T -> Prop :=
| St_stream t m n : stripped (VStream t m n) (VTensor t)
| St_tensor t : stripped (VTensor t) (VTensor t)
| St_str s : stripped (VStr s) (VStr s)
| St_other z : stripped (VOther z) (VOther z)
| St_seq b l l' : Forall2 stripped l l' -> stripped (VSeq b l) (VSeq b l')
| St_map l l' : Forall2 (fun p q => fst p = fst q /\ stripped (snd p) (snd q)) l l' -> stripped (VMap l) (VMap l').

(** The metadata and names of the StreamTensors in a value, from left to right. *)
Inductive found {T} : value T -> list (meta * list dname) -> Prop :=
| Fo_stream t m n : found (VStream t m n) [(m, n)]
| Fo_tensor t : found (VTensor t) []
| Fo_str s : found (VStr s) []
| Fo_other z : found (VOther z) []
| Fo_seq b l ls : Forall2 found l ls -> found (VSeq b l) (concat ls)
| Fo_map l ls : Forall2 (fun p => found (snd p)) l ls -> found (VMap l) (concat ls).

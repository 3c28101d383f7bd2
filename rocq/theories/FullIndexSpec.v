(** Vocabulary for the statements about indexing with any number of Ellipsis and with tensors of any rank.  Of FullIndex.v
    only the types are used. *)

From Coq Require Import String List ZArith Bool Lia.
From Verif Require Import Py Meta MetaSpec Named NamedSpec FullIndex.
Import ListNotations.
Open Scope Z_scope.

(** An index expression without tensors of higher rank, as an expression of the complete model. *)
Definition lift (ix : index) : xindex :=
  match ix with
  | Single i => XSingle (Plain i)
  | Tuple l => XTuple (map Plain l)
  end.

(** Ellipsis in an index expression. *)
Definition dots (i : xitem) : bool := match i with Plain IEll => true | _ => false end.
(** Lists and tensors with at least one dimension, and integer tensors without dimension. *)
Definition listlike (i : xitem) : bool :=
  match i with Plain (IList _) | Plain (ITen _) | Plain (IMask _) | XMask _ | XInts _ => true | _ => false end.
Definition zero_dim (i : xitem) : bool := match i with Plain (IScalar _) => true | _ => false end.
(** A boolean tensor with two or more dimensions. *)
Definition wide (i : xitem) : bool := match i with XMask m => Nat.ltb 1 (length (shp m)) | _ => false end.

(** Row-major order of positions. *)
Inductive before : list Z -> list Z -> Prop :=
| Before_here a b r s : a < b -> length r = length s -> before (a :: r) (b :: s)
| Before_later a r s : before r s -> before (a :: r) (a :: s).

(** [ps] are the positions of the true elements of [m], in row-major order. *)
Definition marks (m : @tensor bool) (ps : list (list Z)) : Prop :=
  (forall i j p q, nth_error ps i = Some p -> nth_error ps j = Some q -> (i < j)%nat -> before p q) /\
  (forall p, In p ps <-> in_range (shp m) p /\ at_ m p = true).

(** [t'] is [t] with the dimensions covered by [m], from dimension [k] on, replaced by one that runs through the true
    elements of [m]. *)
Definition masked_out {V} (k : nat) (m : @tensor bool) (t t' : @tensor V) : Prop :=
  exists ps, marks m ps /\
    shp t' = firstn k (shp t) ++ zlen ps :: skipn (k + length (shp m)) (shp t) /\
    (forall ia j ic p, length ia = k -> nth_error ps j = Some p -> at_ t' (ia ++ Z.of_nat j :: ic) = at_ t (ia ++ p ++ ic)).

(** [qs] are the coordinates in dimension [j] of the true elements of [m], in order and without repetition. *)
Definition touched (m : @tensor bool) (j : nat) (qs : list Z) : Prop :=
  (forall i k a b, nth_error qs i = Some a -> nth_error qs k = Some b -> (i < k)%nat -> a < b) /\
  (forall q, In q qs <-> exists p, in_range (shp m) p /\ at_ m p = true /\ nth j p 0 = q).

(** What happens to dimension [d] when the first dimensions are selected by [ss] and the next ones by the mask [m]. *)
Inductive chosen (ss : list sel) (m : @tensor bool) (d : nat) : sel -> Prop :=
| Ch_before : (d < length ss)%nat -> chosen ss m d (nth d ss Full)
| Ch_under qs : (length ss <= d < length ss + length (shp m))%nat -> touched m (d - length ss) qs -> chosen ss m d (Keep qs)
| Ch_after : (length ss + length (shp m) <= d)%nat -> chosen ss m d Full.

(** [t'] is [t] with dimension [k] replaced by the dimensions of [m], which say where to look. *)
Definition looked_up {V} (k : nat) (m : @tensor Z) (t t' : @tensor V) : Prop :=
  shp t' = firstn k (shp t) ++ shp m ++ skipn (S k) (shp t) /\
  (forall ia ip ic, length ia = k -> length ip = length (shp m) -> in_range (shp t') (ia ++ ip ++ ic) ->
     at_ t' (ia ++ ip ++ ic) = at_ t (ia ++ wrap_neg (nth k (shp t) 0) (at_ m ip) :: ic)).

(** [t'] is [t] with [j] new dimensions of size one before dimension [k]. *)
Definition new_dims {V} (k j : nat) (t t' : @tensor V) : Prop :=
  shp t' = firstn k (shp t) ++ repeat 1 j ++ skipn k (shp t) /\
  (forall ia ic, length ia = k -> at_ t' (ia ++ repeat 0 j ++ ic) = at_ t (ia ++ ic)).

(** Whether an Ellipsis occurs. *)
Definition has_dots (l : list item) : bool := existsb (fun i => match i with IEll => true | _ => false end) l.

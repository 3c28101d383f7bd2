(** Vocabulary for the statements about functions without a rule of their own.
    Nothing here uses the operations of Reduce.v, only its types. *)

From Coq Require Import String List ZArith Bool QArith.
From Verif Require Import Py Meta MetaSpec Named NamedSpec Reduce.
Import ListNotations.
Open Scope Z_scope.

(** Functions that compute along one dimension, and functions that compute one value from many. *)
Definition along_functions : list string :=
  ["softmax"; "Tensor.softmax"; "log_softmax"; "Tensor.log_softmax"; "cumsum"; "Tensor.cumsum"; "cumprod"; "Tensor.cumprod";
   "logcumsumexp"; "Tensor.logcumsumexp"]%string.
Definition over_functions : list string :=
  ["sum"; "Tensor.sum"; "mean"; "Tensor.mean"; "prod"; "Tensor.prod"; "std"; "Tensor.std"; "var"; "Tensor.var";
   "logsumexp"; "Tensor.logsumexp"; "norm"; "Tensor.norm"]%string.

(** The reference [r] means dimension [k]. *)
Definition refers (nms : list dname) (r : dref) (k : nat) : Prop :=
  match r with
  | DNum d => denotes (length nms) d k
  | DNam s => nth_error nms k = Some (Some s)
  end.

Section Spec.
Context {V : Type}.

(** The first [n] values of a line of [t]: [ia] are the positions before the dimension of the line, [ic] those after it. *)
Definition line (t : @tensor V) (n : Z) (ia ic : list Z) : list V := map (fun p => at_ t (ia ++ p :: ic)) (positions n).

(** [f] returns as many values as it gets. *)
Definition keeps_length (f : list V -> list V) : Prop := forall l, length (f l) = length l.

(** What follows does not change what comes before (as in a cumulative sum). *)
Definition causal (f : list V -> list V) : Prop := forall a b, firstn (length a) (f (a ++ b)) = f a.

(** Every value is computed for itself. *)
Definition one_by_one (f : list V -> list V) : Prop := forall l, f l = flat_map (fun v => f [v]) l.

(** In [y] the real data of every stream are what [f] makes of the real data of that stream in [x] alone. *)
Definition each_alone (f : list V -> list V) (bd ld : nat) (rs : list row) (x y : @stensor V) : Prop :=
  forall ia ic b r, length ia = ld -> nth bd (ia ++ 0 :: ic) 0 = Z.of_nat b -> nth_error rs b = Some r ->
    line (tn y) (rlen r) ia ic = f (line (tn x) (rlen r) ia ic).

(** The dimensions of [nd] that are not in [ds]. *)
Definition others (nd : nat) (ds : list nat) : list nat := filter (fun k => negb (existsb (Nat.eqb k) ds)) (seq 0 nd).

(** [t'] is [t] combined by [op] over the dimensions [ds]: those disappear, and every value is [op] of the values of [t]
    at the positions that agree in all other dimensions. *)
Definition combined (op : list V -> V) (ds : list nat) (t t' : @tensor V) : Prop :=
  shp t' = map (fun k => nth k (shp t) 0) (others (length (shp t)) ds) /\
  (forall ix, in_range (shp t') ix -> exists qs, at_ t' ix = op (map (at_ t) qs) /\ NoDup qs /\
     (forall q, In q qs <-> in_range (shp t) q /\ map (fun k => nth k q 0) (others (length (shp t)) ds) = ix)).

(** The same with keepdim: the dimensions [ds] have size one. *)
Definition combined_keep (op : list V -> V) (ds : list nat) (t t' : @tensor V) : Prop :=
  let keep l (v : Z) := map (fun k => if existsb (Nat.eqb k) ds then v else nth k l 0) (seq 0 (length (shp t))) in
  shp t' = keep (shp t) 1 /\
  (forall ix, in_range (shp t') ix -> exists qs, at_ t' ix = op (map (at_ t) qs) /\ NoDup qs /\
     (forall q, In q qs <-> in_range (shp t) q /\ keep q 0 = ix)).

(** A reduction over [ds] covers dimension [k]: no dimension given means all. *)
Definition covers (ds : list nat) (k : nat) : Prop := ds = [] \/ In k ds.

(** [y] is a stream tensor for no choice of dimensions and streams. *)
Definition not_stream (y : @stensor V) : Prop := forall bd ld c rs T, ~ stream_ok y bd ld c rs T.

End Spec.

(** Softmax with weights [w] (torch: the exponential) in exact arithmetic. *)
Definition total (l : list Q) : Q := fold_right Qplus 0%Q l.
Definition softmax (w : Q -> Q) (l : list Q) : list Q := map (fun v => Qdiv (w v) (total (map w l))) l.

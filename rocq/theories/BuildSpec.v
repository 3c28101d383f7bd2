(** Vocabulary for the statements about making StreamTensors and taking them apart.
    Nothing here uses the operations of Build.v, only its types. *)

From Coq Require Import String List ZArith Bool Sorted.
From Verif Require Import Py Meta MetaSpec Named NamedSpec GatherSpec Build.
Import ListNotations.
Open Scope Z_scope.

(** One name or None per dimension, no name twice. *)
Definition well_named (nd : nat) (l : list dname) : Prop := length l = nd /\ names_distinct l.

(** [new] names what [old] names, and perhaps more. *)
Definition more_names (old new : list dname) : Prop := Forall2 (fun o n => o = None \/ n = o) old new.

(** [t'] is [g] of [t], element by element. *)
Definition each {A B} (g : A -> B) (t : @tensor A) (t' : @tensor B) : Prop :=
  shp t' = shp t /\ (forall ix, in_range (shp t) ix -> at_ t' ix = g (at_ t ix)).

(** Broadcasting of two shapes: aligned at the last dimension, missing dimensions count as size one. *)
Inductive bcast_rev : list Z -> list Z -> list Z -> Prop :=
| BR_left b : bcast_rev [] b b
| BR_right a : bcast_rev a [] a
| BR_cons x y z a b c : bcast1 x y z -> bcast_rev a b c -> bcast_rev (x :: a) (y :: b) (z :: c).
Definition broadcasts (a b c : list Z) : Prop := bcast_rev (rev a) (rev b) (rev c).

(** The element of a tensor that is seen at position [p] of a shape it is broadcast to. *)
Definition seen {A} (t : @tensor A) (p : list Z) : A := at_ t (seen_at (shp t) (skipn (length p - length (shp t)) p)).

(** Earlier in row-major order of the shape [s]. *)
Definition before (s p q : list Z) : Prop := block_pos s p < block_pos s q.

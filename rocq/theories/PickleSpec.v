(** Specification for pickling: the parts of a value, and values made of what can be sent. *)

From Coq Require Import String List ZArith Bool Lia.
From Verif Require Import Py Meta Named Pickle.
Import ListNotations.

Section PickleSpec.
Context {V : Type}.

(** [x] is the value [v] or a part of it. *)
Inductive inside (x : pyv V) : pyv V -> Prop :=
| in_self : inside x x
| in_seq b l y : In y l -> inside x y -> inside x (PSeq b l)
| in_meta t n m : inside x m -> inside x (Stream t n (Some m))
| in_args a o : inside x a -> inside x (Proxy a o)
| in_obj a o : inside x o -> inside x (Proxy a (Some o))
| in_slot sl s y : In (s, y) sl -> inside x y -> inside x (MetaObj sl)
| in_field c fs es s y : In (s, y) fs -> inside x y -> inside x (Obj c fs es)
| in_entry c fs es s y : In (s, y) es -> inside x y -> inside x (Obj c fs es).

(** Something of which no part is a StreamTensor, metadata or a tensor with names. *)
Definition portable (v : pyv V) : Prop :=
  (forall t n m, ~ inside (Stream t n m) v) /\ (forall a o, ~ inside (Proxy a o) v) /\ (forall sl, ~ inside (MetaObj sl) v) /\
  (forall t n s, inside (Plain t n) v -> ~ In (Some s) n).

(** Tensors have one name or None per dimension. *)
Definition one_name_each (v : pyv V) : Prop := forall t n, inside (Plain t n) v -> length n = length (shp t).

End PickleSpec.

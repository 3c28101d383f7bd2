(** Vocabulary for the statements about modules used in several places. *)

From Coq Require Import String List ZArith Bool Lia.
From Verif Require Import Py Meta Pad Conv Modes ModuleGraph.
Import ListNotations.

Section ModuleGraphSpec.
Context {V : Type}.

(** The objects of a model. *)
Inductive part_of : obj V -> obj V -> Prop :=
| part_self t : part_of t t
| part_child c t i k ch : In t ch -> part_of c t -> part_of c (Obj i k ch).

(** One object is one thing: wherever it is used it has the same type and the same children. *)
Definition one_object (t : obj V) : Prop := forall a b, part_of a t -> part_of b t -> oid a = oid b -> a = b.

(** A way from the top of the model to the object [j]: the objects passed. *)
Inductive way (j : nat) : obj V -> list nat -> Prop :=
| way_here k ch : way j (Obj j k ch) [j]
| way_down i k ch c p : In c ch -> way j c p -> way j (Obj i k ch) (i :: p).

(** Only supported modules. *)
Definition all_supported (t : obj V) : Prop := forall c, part_of c t -> okind c <> KUnsupported.

(** A convolution of the exact type nn.Conv1d. *)
Definition conv_at (t : obj V) (i : nat) (c : conv_cfg V) : Prop := exists ch, part_of (Obj i (KConv c) ch) t.

Definition nothing_patched : attr_store V := fun _ => None.
End ModuleGraphSpec.

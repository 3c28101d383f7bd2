(** Vocabulary for the statements about the demo dataset. *)

From Coq Require Import String List ZArith Bool Lia.
From Verif Require Import Py.
Import ListNotations.
Open Scope Z_scope.

(** The largest divisor of [b] up to [m]. *)
Definition largest_divisor (n m b : Z) : Prop :=
  1 <= n <= m /\ b mod n = 0 /\ forall k, n < k <= m -> b mod k <> 0.

(** [owner] tells the chunks of different examples apart: those of the j-th example belong to the j-th of [ks]. *)
Definition labelled {X} (owner : X -> nat) (ks : list nat) (examples : list (list X)) : Prop :=
  NoDup ks /\ Forall2 (fun k l => Forall (fun x => owner x = k) l) ks examples.

(** The chunks of one example among others, in order. *)
Definition chunks_of {X} (owner : X -> nat) (k : nat) (l : list X) : list X := filter (fun x => Nat.eqb (owner x) k) l.

(** The i-th capital letter, starting again after Z. *)
Definition letter (i : nat) : string :=
  String (Ascii.ascii_of_nat (65 + Nat.modulo i 26)) EmptyString.

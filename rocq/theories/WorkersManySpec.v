(** Specification for several workers: what the loaders give in a round, and in which round they stop. *)

From Coq Require Import List.
From Verif Require Import Py.
Import ListNotations.

Section WorkersManySpec.
Context {A : Type}.

(** A loader: the items it gives, and the exception after them if it does not just end. *)
Definition source_of : Type := list A * option exn.

(** Round number [r]: the item number [r] of every loader, None for a loader with fewer items. *)
Definition round_of (ss : list source_of) (r : nat) : list (option A) := map (fun s => nth_error (fst s) r) ss.

(** The loader lets round [r] go on: it has an item, or it has ended and [longest] says that the others go on without it. *)
Definition goes_on (longest : bool) (r : nat) (s : source_of) : Prop :=
  r < length (fst s) \/ (longest = true /\ snd s = None).

(** Rounds 0 .. R - 1 are complete, and round R ends with E: the first loader that does not let it go on raises its exception or ends, or
    all have ended (there is none in particular). *)
Definition ends_at (longest : bool) (ss : list source_of) (R : nat) (E : option exn) : Prop :=
  (forall r, r < R -> Forall (goes_on longest r) ss /\ Exists (fun s => r < length (fst s)) ss) /\
  ((exists pre s post, ss = pre ++ s :: post /\ Forall (goes_on longest R) pre /\ ~ goes_on longest R s /\ snd s = E) \/
   (E = None /\ Forall (fun s => length (fst s) <= R /\ longest = true /\ snd s = None) ss)).

End WorkersManySpec.
Arguments source_of A : clear implicits.

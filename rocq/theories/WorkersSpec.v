(** Specification for worker processes: what an iterator gives, and executions that cannot go on. *)

From Coq Require Import List.
From Verif Require Import Py Data Workers.
Import ListNotations.

(** The iterator gives the items of the list and then ends, by StopIteration (None) or by another exception. *)
Inductive gives {A} : gen A -> list A -> option exn -> Prop :=
| gives_stop : gives GStop [] None
| gives_raise e : gives (GRaise e) [] (Some e)
| gives_cons a g l e : gives g l e -> gives (GCons a g) (a :: l) e.

Section WorkersSpec.
Context {A K : Type} (dump : A -> res K) (unpack : K -> res A).

(** An item that arrives as it was sent, and one that cannot be sent. *)
Definition arrives (a : A) : Prop := exists k, dump a = Ok k /\ unpack k = Ok a.
Definition unsendable (a : A) : Prop := exists e, dump a = Err e.

(** No process can do anything, and the program still waits. *)
Definition hangs (m : machine A K) : Prop := stat m = Running /\ wstep dump m = None /\ mstep unpack m = None.

End WorkersSpec.

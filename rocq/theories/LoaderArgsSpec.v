(** Vocabulary for the statements about the arguments of MultiStreamDataLoader. *)

From Coq Require Import String List ZArith Bool Lia.
From Verif Require Import Py Meta Named Pad Data LoaderArgs.
Import ListNotations.
Open Scope Z_scope.

(** The number of worker processes: one per dataset of a list; for a single dataset as many as asked for. A negative number
    counts as 1. *)
Definition worker_count (source : dataset + list dataset) (num_workers : Z) : nat :=
  match source with
  | inl _ => if num_workers =? 0 then 0%nat else Z.to_nat (Z.max 1 num_workers)
  | inr l => length l
  end.

(** Arguments with which the workers can be started: without workers no timeout and no persistent workers, with workers asked
    for by number a positive prefetch factor if any. *)
Definition startable (source : dataset + list dataset) (num_workers timeout : Z) (prefetch : option Z) (persistent : bool) : Prop :=
  0 <= timeout /\
  (worker_count source num_workers = 0%nat -> timeout = 0 /\ persistent = false) /\
  (worker_count source num_workers <> 0%nat -> forall p, prefetch = Some p -> 0 < num_workers -> 0 < p).

(** Vocabulary for the statements about StreamMetadata.__getitem__ and __repr__. *)

From Coq Require Import String List ZArith Bool Lia.
From Verif Require Import Py Meta MetaSpec Named NamedSpec.
Import ListNotations.
Open Scope Z_scope.

(** A selection of time steps among [T]; a full slice keeps them all. *)
Definition steps (T : Z) (s : sel) : sel := match s with Full => Keep (positions T) | _ => s end.

(** Time steps counted from the start, so that they mean the same in every batch: no negative numbers, no stride, in order
    and not empty. *)
Definition absolute (i : item) : Prop :=
  match i with
  | IInt k => 0 <= k
  | ISlice (mkSlice a b st) =>
      nonneg_end a /\ nonneg_end b /\ (st = None \/ st = Some 1) /\
      match a, b with Some x, Some y => x <= y | Some _, None => True | None, _ => True end
  | IList l | ITen l => l <> [] /\ Forall (fun k => 0 <= k) l /\ ascending l
  | IMask b => In true b
  | _ => False
  end.

(** [l] without its last element starts with [p]. *)
Definition proper_start {A} (p l : list A) : Prop := exists q z, l = p ++ q ++ [z].

(** Vocabulary for the statements about metadata indexed with a two-dimensional mask. *)

From Coq Require Import String List ZArith Bool Lia.
From Verif Require Import Py Meta MetaSpec.
Import ListNotations.
Open Scope Z_scope.

(** The streams of which the mask selects something, each with its row of the mask. *)
Definition some_true (b : list bool) : bool := existsb (fun x => x) b.
Definition kept_rows (rs : list row) (mask : list (list bool)) : list (row * list bool) :=
  filter (fun p => some_true (snd p)) (combine rs mask).

(** The row that the code builds from the time steps [ps] of [r]: it ends if any step at or after the last real one is
    kept, except that a row of length one does not when its step is kept. *)
Definition mask_row (ps : list Z) (r : row) : row :=
  mkRow (rid r) (rsos r && memb 0 ps)
        (reos r && negb ((rlen r =? 1) && memb 0 ps) && existsb (fun p => rlen r - 1 <=? p) ps)
        (count_real ps (rlen r)) (rch r).

(** Vocabulary for the statements about pooling layers. *)

From Coq Require Import List Arith.
From Verif Require Import Pool.
Import ListNotations.

Section PoolSpec.
Context {V : Type}.

(** [o] is the pooling of the sequence [l]: a column for every window that fits, in steps of the stride. *)
Definition pooled (c : pool_cfg V) (l o : list V) : Prop :=
  (forall i, i < length o -> i * pst c + pk c <= length l /\ nth_error o i = Some (pfun c (firstn (pk c) (skipn (i * pst c) l)))) /\
  length l < length o * pst c + pk c.

(** How many columns the pooling of [n] columns has. *)
Definition fits_windows (c : pool_cfg V) (n m : nat) : Prop := (forall i, i < m -> i * pst c + pk c <= n) /\ n < m * pst c + pk c.
End PoolSpec.

(** Vocabulary for the statements about residual connections. Uses only the data types of the model. *)

From Coq Require Import String List ZArith Bool Lia.
From Verif Require Import Py Meta Pad Conv ConvSpec.
Import ListNotations.
Open Scope nat_scope.

Section ResidualSpec.
Context {V : Type}.

(** A convolution whose output has as many columns as its input when the module is run without streaming. *)
Definition same_size (c : conv_cfg V) : Prop := strd c = 1 /\ kspan c = 2 * padn c + 1.

(** Column by column sum. *)
Definition skip_sum (plus : V -> V -> V) (x y : list V) : list V :=
  map (fun u : V * V => plus (fst u) (snd u)) (combine x y).

(** The residual connection around the unmodified module, on a whole sequence. *)
Definition offline_residual (plus : V -> V -> V) (c : conv_cfg V) (x : list V) : list V := skip_sum plus x (offline c x).

(** No tensor carries chunk indices. *)
Definition unnumbered (sched : list (tens V)) : Prop := Forall (fun t => th t = false) sched.

End ResidualSpec.

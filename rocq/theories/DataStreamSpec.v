(** Vocabulary for the statements about data loaders in front of a network. *)

From Coq Require Import String List ZArith Bool Lia.
From Verif Require Import Py Meta Pad Conv ConvSpec Stack StackSpec Data.
Import ListNotations.
Open Scope nat_scope.

Section DataStreamSpec.
Context {V : Type}.

(** The data of the sample is the chunk its length speaks of, of at least [n] columns. *)
Definition own_chunk (n : nat) (s : sample V) : Prop := n <= length (sdata s) /\ slen s = Z.of_nat (length (sdata s)).

(** The layers have something to work on: the sequence and what the layers make of it are not empty. *)
Fixpoint fruitful (Ls : list (layer V)) (d : list V) : Prop :=
  d <> [] /\ match Ls with [] => True | L :: Ls' => fruitful Ls' (layer_offline L d) end.

(** The collected output of a file: what the network makes of the data [d]; the chunk index of its last chunk. *)
Definition file_output (Ls : list (layer V)) (f : string) (d : list V) (k : Z) : single V :=
  mkSingle (stack_offline Ls d) (mkMeta [f] [true] [true] [Z.of_nat (length (stack_offline Ls d))] (Some [k])).

End DataStreamSpec.

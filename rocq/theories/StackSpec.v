(** Vocabulary for stacks of layers. *)

From Coq Require Import String List ZArith Bool Lia.
From Verif Require Import Py Meta MetaSpec Pad Conv ConvSpec Stack.
Import ListNotations.
Open Scope nat_scope.

Section StackSpec.
Context {V : Type}.

(** The stack in offline mode on a whole sequence. *)
Definition layer_offline (L : layer V) (x : list V) : list V :=
  match L with LConv c => offline c x | LMap g => map g x end.
Definition stack_offline (Ls : list (layer V)) (x : list V) : list V := fold_left (fun y L => layer_offline L y) Ls x.

(** The chunks of one stream after one layer. *)
Definition layer_chunks (L : layer V) (l : list (chunk V)) : list (chunk V) :=
  match L with LConv c => ideal c [] l | LMap g => map (fun r => set_data r (map g (cdat r))) l end.

(** Start and end chunks are not empty. *)
Definition flagged_nonempty (l : list (chunk V)) : Prop := Forall (fun r => csos r = true \/ ceos r = true -> cdat r <> []) l.

(** The start and end chunks of a stream still hold data in front of every layer. *)
Fixpoint survives (Ls : list (layer V)) (l : list (chunk V)) : Prop :=
  match Ls with [] => True | L :: Ls' => flagged_nonempty l /\ survives Ls' (layer_chunks L l) end.

(** The zero columns of neighbouring layers agree: convolutions pad with the zero column of their input, element-wise
    layers map zero to zero. [z] is the zero column of the input, [z'] that of the output. *)
Fixpoint zero_preserving (z : V) (Ls : list (layer V)) (z' : V) : Prop :=
  match Ls with
  | [] => z = z'
  | LConv c :: Ls' => zin c = z /\ zero_preserving (zout c) Ls' z'
  | LMap g :: Ls' => zero_preserving (g z) Ls' z'
  end.

(** Convolutions torch accepts, with stride at most the kernel width. *)
Definition good_layer (L : layer V) : Prop :=
  match L with LConv c => valid_cfg c /\ strd c <= kspan c | LMap _ => True end.

(** The schedule after one layer: every chunk replaced by the output due for it. *)
Definition layer_schedule (L : layer V) (sched : list (list (chunk V))) : list (list (chunk V)) :=
  map (fun n => map (fun r => match L with
                              | LConv c => set_data r (due c (so_far (pending c None (stream_of (cid r) (firstn n sched)))) r)
                              | LMap g => set_data r (map g (cdat r))
                              end) (nth n sched [])) (seq 0 (length sched)).

(** Behind every convolution every batch still holds some column. *)
Fixpoint alive (Ls : list (layer V)) (sched : list (list (chunk V))) : Prop :=
  match Ls with
  | [] => True
  | L :: Ls' => match L with LConv _ => Forall (fun rs => exists r, In r rs /\ cdat r <> []) (layer_schedule L sched) | LMap _ => True end
                /\ alive Ls' (layer_schedule L sched)
  end.

(** Strides smaller than the kernel width, or kernels of width 1. *)
Definition overlapping (L : layer V) : Prop :=
  match L with LConv c => valid_cfg c /\ (strd c < kspan c \/ strd c = 1 /\ kspan c = 1) | LMap _ => True end.

(** What [n] columns give without any padding: None if a convolution finds less than its kernel width. *)
Fixpoint unpadded_width (Ls : list (layer V)) (n : nat) : option nat :=
  match Ls with
  | [] => Some n
  | LConv c :: Ls' => if n <? kspan c then None else unpadded_width Ls' ((n - kspan c) / strd c + 1)
  | LMap _ :: Ls' => unpadded_width Ls' n
  end.

End StackSpec.

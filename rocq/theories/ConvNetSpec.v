(** Vocabulary for networks on tensors (C84). *)

From Coq Require Import String List ZArith Bool Lia.
From Verif Require Import Py Meta MetaSpec Named Pad Conv ConvSpec Stack StackSpec ConvTensor ConvTensorSpec ConvNet.
Import ListNotations.

Section ConvNetSpec.
Context {V : Type}.

(** Sizes of a module: channels per group, kernel size, stride, dilation, padding. *)
Record sizes : Type := mkSizes { z_cg : nat; z_ks : nat; z_s : nat; z_d : nat; z_p : nat }.

(** A network that takes [c] channels and gives [c'], the zero columns being [z] and [z']: modules torch accepts, with stride
    at most the kernel span; layers on time steps give the number of channels they should; a convolution gets zeros in the
    padding. [szs] lists the sizes, used for convolutions only. *)
Inductive network (A : arith V) : nat -> list V -> list (net_layer V) -> list sizes -> nat -> list V -> Prop :=
| N_nil c z : network A c z [] [] c z
| N_conv c n c' z' k q Ls qs : module_ok k c n (z_cg q) (z_ks q) (z_s q) (z_d q) (z_p q) -> (z_s q <= z_d q * (z_ks q - 1) + 1)%nat ->
    network A n (repeat (zero A) n) Ls qs c' z' -> network A c (repeat (zero A) c) (NConv k :: Ls) (q :: qs) c' z'
| N_step c z n g c' z' q Ls qs : (forall l, length l = c -> length (g l) = n) ->
    network A n (g z) Ls qs c' z' -> network A c z (NStep n g :: Ls) (q :: qs) c' z'.

(** Output channels of every layer. *)
Definition out_channels (L : net_layer V) : nat :=
  match L with NConv k => Z.to_nat (nth 0 (shp (weight k)) 0%Z) | NStep n _ => n end.

(** What the network computes from a whole sequence of columns. *)
Fixpoint network_value (A : arith V) (Ls : list (net_layer V)) (qs : list sizes) (cols out : list (list V)) : Prop :=
  match Ls, qs with
  | [], _ => out = cols
  | NConv k :: Ls', q :: qs' =>
      exists mid, convolution_of A k (out_channels (NConv k)) (z_cg q) (z_ks q) (z_s q) (z_d q) (z_p q) cols mid /\ network_value A Ls' qs' mid out
  | NStep _ g :: Ls', _ :: qs' => network_value A Ls' qs' (map g cols) out
  | _, [] => False
  end.

(** The same network on columns. *)
Fixpoint column_layers (A : arith V) (c : nat) (Ls : list (net_layer V)) (qs : list sizes) : list (layer (list V)) :=
  match Ls, qs with
  | L :: Ls', q :: qs' =>
      match L with
      | NConv k => LConv (columns_cfg A k c (out_channels L) (z_cg q) (z_ks q) (z_s q) (z_d q) (z_p q))
      | NStep _ g => LMap g
      end :: column_layers A (out_channels L) Ls' qs'
  | _, _ => []
  end.

(** The width after all modules, if no convolution finds less than its kernel span. *)
Fixpoint net_width (Ls : list (net_layer V)) (qs : list sizes) (w : nat) : option nat :=
  match Ls, qs with
  | NConv _ :: Ls', q :: qs' =>
      let span := (z_d q * (z_ks q - 1) + 1)%nat in
      if (w + 2 * z_p q <? span)%nat then None else net_width Ls' qs' ((w + 2 * z_p q - span) / z_s q + 1)
  | NStep _ _ :: Ls', _ :: qs' => net_width Ls' qs' w
  | _, _ => Some w
  end.

(** Buffers of the modules on tensors and on columns. *)
Fixpoint net_buffers (c : nat) (Ls : list (net_layer V)) (sts : list (tbuffers V)) (sts' : list (buffers (list V))) : Prop :=
  match Ls, sts, sts' with
  | [], [], [] => True
  | L :: Ls', st :: r, st' :: r' => match L with NConv _ => same_buffers c st st' | NStep _ _ => True end /\ net_buffers (out_channels L) Ls' r r'
  | _, _, _ => False
  end.

(** The sizes of the same modules without padding. *)
Definition unpadded (q : sizes) : sizes := mkSizes (z_cg q) (z_ks q) (z_s q) (z_d q) 0.

(** Strides smaller than the kernel span, or kernels of span 1. *)
Fixpoint net_overlapping (Ls : list (net_layer V)) (qs : list sizes) : Prop :=
  match Ls, qs with
  | L :: Ls', q :: qs' =>
      match L with
      | NConv _ => (z_s q < z_d q * (z_ks q - 1) + 1 \/ z_s q = 1 /\ z_d q * (z_ks q - 1) + 1 = 1)%nat
      | NStep _ _ => True
      end /\ net_overlapping Ls' qs'
  | _, _ => True
  end.

End ConvNetSpec.

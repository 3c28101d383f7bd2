(** Vocabulary for the example program on tensors (C88). *)

From Coq Require Import String List ZArith Bool Lia.
From Verif Require Import Py Meta Named Pad Conv ConvTensor ConvTensorSpec ConvNet ConvNetSpec ProgramSpec.
Import ListNotations.

Section ProgramTensorSpec.
Context {V : Type}.

(** A chunk of sizes (c, length) with dimensions (f, L) is the list of its columns. *)
Record holds_single (c : nat) (f : dname) (x : @stensor V) (s : single (list V)) : Prop := mkHoldsSingle {
  hs_data : holds_columns c (tn x) (sd s);
  hs_names : names x = [f; Some "L"%string];
  hs_meta : smeta x = sm s
}.

(** The columns of a tensor of sizes (c, n). *)
Definition columns_of (c n : nat) (t : @tensor V) : list (list V) :=
  map (fun p => map (fun j => at_ t [Z.of_nat j; Z.of_nat p]) (seq 0 c)) (seq 0 n).

(** Kernel span, stride and padding of the convolutions of a network. *)
Fixpoint net_shapes (Ls : list (net_layer V)) (qs : list sizes) : list shape :=
  match Ls, qs with
  | NConv _ :: Ls', q :: qs' => (z_d q * (z_ks q - 1) + 1, z_s q, z_p q)%nat :: net_shapes Ls' qs'
  | NStep _ _ :: Ls', _ :: qs' => net_shapes Ls' qs'
  | _, _ => []
  end.

(** [y], of sizes (c, w), is row 0 of [t], of sizes (1, c, w). *)
Definition row_of (t y : @tensor V) : Prop :=
  exists c w, shp t = [1; c; w]%Z /\ shp y = [c; w] /\
    (forall j p, (0 <= j < c)%Z -> (0 <= p < w)%Z -> at_ y [j; p] = at_ t [0; j; p]%Z).

End ProgramTensorSpec.

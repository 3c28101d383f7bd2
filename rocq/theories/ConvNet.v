(** Model of a network of patched nn.Conv1d modules and layers that work on each time step, on the tensors of Named.v.

    A layer on time steps (relu, dropout and batch norm in evaluation mode, log_softmax along the channels, ...) reaches the
    decouple, recouple or default rule of __torch_function__ (dreamstream/tensor.py 776-836): the plain function is applied to the whole
    padded tensor, names and metadata are put back unchanged. It is an arbitrary function of the channels at one time step.
    nn.Sequential calls the layers one after the other; online mode: patches/modes.py 6-27 (Modes.v). *)

From Coq Require Import String List ZArith Bool Lia.
From Verif Require Import Py Meta Named ConvTensor.
Import ListNotations.
Open Scope Z_scope.

Section ConvNet.
Context {V : Type}.
Notation tensor := (@tensor V).
Notation stensor := (@stensor V).

(** A module of the network. [g] is given the values of all channels at one time step and gives [n] values. *)
Inductive net_layer : Type :=
| NConv (k : conv_args V)
| NStep (n : nat) (g : list V -> list V).

(** A function of the channels applied to a plain tensor (batch, channels, length). Library code. *)
Definition step_tensor (A : arith V) (n : nat) (g : list V -> list V) (t : tensor) : tensor :=
  mkTn [size t 0; Z.of_nat n; size t 2]
       (fun ix => nth (Z.to_nat (nth 1 ix 0)) (g (map (fun c => at_ t [nth 0 ix 0; c; nth 2 ix 0]) (dim_positions (size t 1)))) (zero A)).

(** tensor.py 798-814, 816-836: the function on the data, names and metadata as before. *)
Definition step_call (A : arith V) (n : nat) (g : list V -> list V) (x : stensor) : res stensor :=
  if Nat.eqb (ndim (tn x)) 3 then Ok (mkSt (step_tensor A n g (tn x)) (names x) (smeta x)) else Err IndexError.

(** One module; the second component are its buffers. *)
Definition net_layer_call (A : arith V) (L : net_layer) (st : tbuffers V) (x : stensor) : res (stensor * tbuffers V) :=
  match L with
  | NConv k => conv_call_t A k st x
  | NStep n g => do y <- step_call A n g x; Ok (y, st)
  end.

(** One online call of the network. *)
Fixpoint net_call (A : arith V) (Ls : list net_layer) (sts : list (tbuffers V)) (x : stensor) : res (stensor * list (tbuffers V)) :=
  match Ls, sts with
  | L :: Ls', st :: sts' =>
      do '(y, st1) <- net_layer_call A L st x;
      do '(z, sts1) <- net_call A Ls' sts' y;
      Ok (z, st1 :: sts1)
  | _, _ => Ok (x, [])
  end.

Fixpoint net_run (A : arith V) (Ls : list net_layer) (sts : list (tbuffers V)) (xs : list stensor) : res (list stensor * list (tbuffers V)) :=
  match xs with
  | [] => Ok ([], sts)
  | x :: r => do '(y, sts1) <- net_call A Ls sts x;
              do '(ys, sts2) <- net_run A Ls sts1 r;
              Ok (y :: ys, sts2)
  end.

(** A freshly patched network (patches/conv.py 64). *)
Definition net_fresh (Ls : list net_layer) : list (tbuffers V) := map (fun _ => fun _ => None) Ls.

(** The network on a plain tensor: every module uses its own padding. *)
Fixpoint net_plain (A : arith V) (Ls : list net_layer) (t : tensor) : res tensor :=
  match Ls with
  | [] => Ok t
  | NConv k :: Ls' => do p <- int_padding (padding k); do u <- torch_conv1d_t A t k p; net_plain A Ls' u
  | NStep n g :: Ls' => net_plain A Ls' (step_tensor A n g t)
  end.

End ConvNet.
Arguments net_layer V : clear implicits.

(** Model of a sequential model in online mode: patched Conv1d modules (patches/conv.py, patches/modes.py 6-27) and
    element-wise layers, called one after the other on the same StreamTensor.

    Element-wise layers (relu, batch norm in evaluation mode, dropout in evaluation mode, ...) reach the default or the
    recouple rule of tensor.py 776-836: the plain function is applied to the whole padded tensor and the metadata is
    put back unchanged. Columns of all layers are elements of one type [V]; a layer works on columns as a whole. *)

From Coq Require Import String List ZArith Bool Lia.
From Verif Require Import Py Meta Pad Conv.
Import ListNotations.

Section Stack.
Context {V : Type}.

Inductive layer : Type :=
| LConv (c : conv_cfg V)
| LMap (g : V -> V).

(** tensor.py 798-814: decoupled call, metadata put back. *)
Definition map_call (g : V -> V) (x : batch V) : batch V := mkBatch (bw x) (map (map g) (bd x)) (bm x).

(** One layer; the buffers of an element-wise layer are never used. *)
Definition layer_call (L : layer) (st : buffers V) (x : batch V) : res (batch V * buffers V) :=
  match L with
  | LConv c => conv_call c st x
  | LMap g => Ok (map_call g x, st)
  end.

(** nn.Sequential.forward: every layer in turn, each with its own buffers. *)
Fixpoint stack_call (Ls : list layer) (sts : list (buffers V)) (x : batch V) : res (batch V * list (buffers V)) :=
  match Ls, sts with
  | L :: Ls', st :: sts' =>
      do '(y, st1) <- layer_call L st x;
      do '(z, sts1) <- stack_call Ls' sts' y;
      Ok (z, st1 :: sts1)
  | _, _ => Ok (x, [])
  end.

(** A sequence of online calls of the whole stack. *)
Fixpoint stack_run (Ls : list layer) (sts : list (buffers V)) (xs : list (batch V)) : res (list (batch V) * list (buffers V)) :=
  match xs with
  | [] => Ok ([], sts)
  | x :: t => do '(y, sts1) <- stack_call Ls sts x;
              do '(ys, sts2) <- stack_run Ls sts1 t;
              Ok (y :: ys, sts2)
  end.

(** All buffers empty: a freshly patched model (patches/conv.py 64). *)
Definition fresh (Ls : list layer) : list (buffers V) := map (fun _ => no_buffers) Ls.

End Stack.
Arguments layer V : clear implicits.

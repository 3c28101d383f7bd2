(** Model of a residual connection around a streaming convolution: the code `x + conv(x)` with a StreamTensor [x] in
    streaming mode. The call of the module is dreamstream/patches/conv.py 13-57 and dreamstream/overrides.py 193-256
    (Conv.v); `+` is "Tensor.__add__", a function of the default rule (dreamstream/tensor.py 816-836).

    Simplifications: as in Conv.v (a column is an element of [V]); the sum of two columns is an arbitrary function
    [plus]; the two tensors have the same batch size and the same names. *)

From Coq Require Import String List ZArith Bool Lia.
From Verif Require Import Py Meta Pad Conv.
From Verif Require Dispatch.
Import ListNotations.
Open Scope nat_scope.

Section Residual.
Context {V : Type}.

(** torch broadcasting of the last dimension (called by tensor.py 818): equal sizes, or one of them is 1. *)
Definition broadcast_width (a b : nat) : res nat :=
  if a =? b then Ok a
  else if a =? 1 then Ok b
  else if b =? 1 then Ok a
  else Err RuntimeError.

Definition stretch (w : nat) (r : list V) : list V :=
  match r with [v] => repeat v w | _ => r end.

(** tensor.py 816-836 (default_valid) for two StreamTensors: the function runs first (818), then the metadata is compared
    (821-829), and the result carries the metadata of the first one (832). *)
Definition sum_call (plus : V -> V -> V) (a b : batch V) : res (batch V) :=
  do w <- broadcast_width (bw a) (bw b);
  do eq <- Dispatch.all_eq (bm a) [bm b];
  if negb eq then Err RuntimeError
  else Ok (mkBatch w
             (map (fun q : list V * list V => map (fun u => plus (fst u) (snd u)) (zip (stretch w (fst q)) (stretch w (snd q))))
                  (zip (bd a) (bd b)))
             (bm a)).

(** `x + conv(x)`: the module is called first (patches/conv.py 13-57, overrides.py 193-256); the sum reads [x] as the
    call leaves it (overrides.py 219-235 write to it). *)
Definition residual_call (plus : V -> V -> V) (c : conv_cfg V) (st : buffers V) (x : batch V) : res (batch V * buffers V) :=
  do '(y, st1) <- conv_call c st x;
  do x1 <- input_after c st x;
  do s <- sum_call plus x1 y;
  Ok (s, st1).

(** A sequence of such calls. *)
Fixpoint residual_run (plus : V -> V -> V) (c : conv_cfg V) (st : buffers V) (xs : list (batch V))
  : res (list (batch V) * buffers V) :=
  match xs with
  | [] => Ok ([], st)
  | x :: t => do '(s, st1) <- residual_call plus c st x;
              do '(ss, st2) <- residual_run plus c st1 t;
              Ok (s :: ss, st2)
  end.

End Residual.

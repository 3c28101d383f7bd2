(** Model of a pooling layer (nn.MaxPool1d without padding, dilation and ceil_mode) in a patched model: patch_module accepts
    it and adds only the modes (dreamstream/patches/general.py 18-43), the function max_pool1d is in none of the sets of
    dreamstream/func_coverage.py, so that dreamstream/tensor.py 807-836 (default_valid) calls torch and gives the result the
    metadata of the argument.
    What the layer computes from the columns of a window is a parameter; the tensor is given by its rows of columns, as in
    Pad.v and Conv.v; the warning (809-812) is in Warn.v. *)

From Coq Require Import String List ZArith Bool Lia.
From Verif Require Import Py Meta Pad Conv.
Import ListNotations.
Open Scope nat_scope.

Section Pool.
Context {V : Type}.

Record pool_cfg : Type := mkPool {
  pk : nat;                  (* kernel_size *)
  pst : nat;                 (* stride *)
  pfun : list V -> V         (* one output column from the columns of a window *)
}.

(** torch.max_pool1d on a plain tensor of [w] columns: RuntimeError for a kernel size or stride below 1 and if the window
    does not fit.  Library code. *)
Definition pool_row (c : pool_cfg) (n : nat) (r : list V) : list V :=
  map (fun i => pfun c (firstn (pk c) (skipn (i * pst c) r))) (seq 0 n).

Definition torch_pool (c : pool_cfg) (w : nat) (rows : list (list V)) : res (nat * list (list V)) :=
  if (pk c =? 0) || (pst c =? 0) || (w <? pk c) then Err RuntimeError
  else let n := (w - pk c) / pst c + 1 in Ok (n, map (pool_row c n) rows).

(** tensor.py 816-836: the metadata are those of the argument. *)
Definition pool_call (c : pool_cfg) (x : batch V) : res (batch V) :=
  do '(n, out) <- torch_pool c (bw x) (bd x);
  Ok (mkBatch n out (bm x)).
End Pool.
Arguments pool_cfg V : clear implicits.

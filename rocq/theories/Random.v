(** dreamstream/random.py.

    Every draw of torch.rand (single precision, CPU) is k / 2^24 with 0 <= k < 2^24. The draws are parameters; so are the
    values of the tensor. `device` and `dtype` in kwargs are not modelled. *)

From Coq Require Import String List ZArith Bool Lia.
From Coq Require Import DecimalString.
From Verif Require Import Py Meta Named F32.
Import ListNotations.
Open Scope Z_scope.

(** random.py 12, str(i). *)
Definition str_of (i : nat) : string := NilZero.string_of_uint (Nat.to_uint i).

(** random.py 13: `(u * T).to(torch.int64)` for u = k / 2^24. T is converted to binary32, the product rounded to it. *)
Definition rand_length (k T : Z) : Z :=
  let '(a, b) := round_float 24 (T, 1) in
  let '(n, d) := round_float 24 (k * a, 2 ^ 24 * b) in
  n / d.

(** random.py 14-15: `u < 0.5` for u = k / 2^24. *)
Definition rand_flag (k : Z) : bool := 2 * k <? 2 ^ 24.

Section Random.
Context {V : Type}.

(** tensor.size(name): RuntimeError without the name (random.py 12-15). *)
Definition size_named (nn : list dname) (t : @tensor V) (n : string) : res Z :=
  match names_index (Some n) nn with Ok d => Ok (size t d) | Err _ => Err RuntimeError end.

(** random.py 8-17 (rand_stream_tensor). [t] are the values; [ul], [us], [ue] the draws of lines 13-15. *)
Definition rand_stream_tensor (t : @tensor V) (nms : list dname) (ul us ue : nat -> Z) : res (@stensor V) :=
  do nn <- rename (ndim t) nms;
  do b <- size_named nn t BATCH;
  let rows := seq 0 (Z.to_nat b) in
  do l <- size_named nn t LENGTH;
  do m <- make_meta (map str_of rows) (map (fun i => rand_flag (us i)) rows) (map (fun i => rand_flag (ue i)) rows)
                    (map (fun i => rand_length (ul i) l) rows) None;
  Ok (mkSt t nn m).

End Random.

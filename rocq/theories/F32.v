(** The division `x.div(k).ceil()` of tensor.py 533 in single precision, as torch computes it: both operands are converted
    to binary32, the quotient is rounded to binary32 (24 significant bits, nearest, ties to even), then rounded up to an
    integer.  [Meta.index_length_slice] takes this division as exact; here it is not.

    Exponents are unbounded: the quotients of 32-bit integers are far from the smallest and largest binary32 numbers. *)

From Coq Require Import String List ZArith Bool Lia.
From Verif Require Import Py Meta.
Import ListNotations.
Open Scope Z_scope.

(** A number as a fraction with positive denominator. *)
Definition frac : Type := (Z * Z)%type.

(** The integer nearest to a / b, ties to even. *)
Definition nearest (a b : Z) : Z :=
  let q := a / b in
  let r := a mod b in
  if 2 * r <? b then q else if b <? 2 * r then q + 1 else if Z.even q then q else q + 1.

(** The exponent e with 2^e <= a / b < 2^(e + 1), for a > 0. *)
Definition exponent (a b : Z) : Z :=
  let l := Z.log2 a - Z.log2 b in
  if (if 0 <=? l then b * 2 ^ l <=? a else b <=? a * 2 ^ (- l)) then l else l - 1.

(** The number with [p] significant bits nearest to a / b > 0: m * 2^s with 2^(p-1) <= m <= 2^p. *)
Definition round_pos (p a b : Z) : frac :=
  let s := exponent a b - (p - 1) in
  if 0 <=? s then (nearest a (b * 2 ^ s) * 2 ^ s, 1) else (nearest (a * 2 ^ (- s)) b, 2 ^ (- s)).

(** The same for any sign. *)
Definition round_float (p : Z) (f : frac) : frac :=
  let '(a, b) := f in
  if a =? 0 then (0, 1)
  else if a <? 0 then let '(n, d) := round_pos p (- a) b in (- n, d)
  else round_pos p a b.

(** x / k for integers, k > 0, with [p] significant bits. *)
Definition div_float (p x k : Z) : frac :=
  let '(a, b) := round_float p (x, 1) in
  let '(c, d) := round_float p (k, 1) in
  round_float p (a * d, b * c).

(** .ceil().to(int) of a fraction. *)
Definition ceil_frac (f : frac) : Z := let '(a, b) := f in - ((- a) / b).
Definition ceil_div32 (x k : Z) : Z := ceil_frac (div_float 24 x k).

(** tensor.py 518-538 (_index_length_slice), with the division of line 533 in binary32. *)
Definition index_length_slice32 (m : meta) (sl : pslice) : res meta :=
  do mx <- max_length m;
  do '(start, stop, stride) <- slice_indices sl mx;
  if stride <? 0 then Err NotImplementedError
  else
    let stop' := if stride =? 1 then stop else mx - ((mx - 1 - start) mod stride) in
    let l := if stride =? 1
             then map (fun n => clip (n - start) 0 (stop' - start)) (lens m)
             else map (fun n => ceil_div32 (clip (n - start) 0 (stop' - start)) stride) (lens m) in
    let s := keep_sos ((start =? 0) && (stop' >? 0)) (sos m) in
    let e := update_eos_from_slice (eos m) (lens m) start stop' in
    make_meta (ids m) s e l (chs m).

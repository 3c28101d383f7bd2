(** dreamstream/utils/timing.py.

    Times are exact rationals; the binary rounding of `dt / scale` and of the timings, infinities and nan are not modelled.
    A string is the list of its code points, all below 256 here (the micro sign is 181). The clock, the statement that is timed and
    the standard library's Timer are parameters: [number] and [taken] of the second call of autorange (88), and the
    list of times that Timer.repeat returns (94). np.std is represented by its square. *)

From Coq Require Import String Ascii List ZArith QArith Qround Bool Lia.
From Verif Require Import Py.
Import ListNotations.
Open Scope Z_scope.

(** timing.py 21: the keys of UNITS; the scale is 10^(-k). *)
Inductive tunit := NS | US | MS | SEC.
Definition unit_name (u : tunit) : string :=
  match u with NS => "ns" | US => String (ascii_of_nat 181) "s" | MS => "ms" | SEC => "s" end.
Definition unit_exp (u : tunit) : Z := match u with NS => 9 | US => 6 | MS => 3 | SEC => 0 end.

(** UNITS[unit] (30): KeyError for other strings. *)
Definition find_unit (s : string) : res tunit :=
  match filter (fun u => String.eqb s (unit_name u)) [NS; US; MS; SEC] with u :: _ => Ok u | [] => Err KeyError end.

(** dt / scale (38). *)
Definition rescale (u : tunit) (dt : Q) : Q := (Qnum dt * 10 ^ unit_exp u # Qden dt).

(** timing.py 32-36: the scales in descending order; the loop variables keep their last values when no scale is small enough. *)
Fixpoint choose_unit (us : list tunit) (dt : Q) (last : tunit) : tunit :=
  match us with
  | [] => last
  | u :: t => if Zpos (Qden dt) <=? Qnum dt * 10 ^ unit_exp u then u else choose_unit t dt u
  end.

(* ---------- the conversion %.*g of Python (38) ---------- *)

(** The number of times b can be multiplied by ten without exceeding a. *)
Fixpoint tens_up (fuel : nat) (a b : Z) : nat :=
  match fuel with O => O | S f => if 10 * b <=? a then S (tens_up f a (10 * b)) else O end.
(** The number of times a must be multiplied by ten to reach b. *)
Fixpoint tens_down (fuel : nat) (a b : Z) : nat :=
  match fuel with O => O | S f => if a <? b then S (tens_down f (10 * a) b) else O end.

(** The decimal exponent of a / b for a, b > 0. *)
Definition exponent10 (a b : Z) : Z :=
  if b <=? a then Z.of_nat (tens_up (S (Z.to_nat (Z.log2 a))) a b) else - Z.of_nat (tens_down (S (Z.to_nat (Z.log2 b))) a b).

(** Nearest integer, ties to even. *)
Definition nearest (a b : Z) : Z :=
  let f := a / b in
  let r := a mod b in
  if 2 * r <? b then f else if b <? 2 * r then f + 1 else if Z.even f then f else f + 1.

(** p significant digits m and the exponent x of a / b: about m * 10^(x - p + 1). *)
Definition significand (p a b : Z) : Z * Z :=
  let x := exponent10 a b in
  let s := p - 1 - x in
  let m := nearest (a * 10 ^ Z.max 0 s) (b * 10 ^ Z.max 0 (- s)) in
  if m =? 10 ^ p then (10 ^ (p - 1), x + 1) else (m, x).

Definition digit_char (d : Z) : ascii := ascii_of_N (Z.to_N (48 + d)).
(** The last k decimal digits of n. *)
Fixpoint digits (k : nat) (n : Z) : string :=
  match k with O => EmptyString | S k' => (digits k' (n / 10) ++ String (digit_char (n mod 10)) EmptyString)%string end.
(** Trailing zeros removed. *)
Fixpoint strip0 (s : string) : string :=
  match s with
  | EmptyString => EmptyString
  | String c t => match strip0 t with EmptyString => if Ascii.eqb c "0" then EmptyString else String c EmptyString | t' => String c t' end
  end.

(** m / 10^f with w digits before the point and at most f behind it. *)
Definition decimal (w f : nat) (m : Z) : string :=
  (digits w (m / 10 ^ Z.of_nat f) ++
   match strip0 (digits f (m mod 10 ^ Z.of_nat f)) with EmptyString => EmptyString | t => String "." t end)%string.

(** The exponent: a sign and at least two digits. *)
Definition exponent_text (x : Z) : string :=
  ("e" ++ (if (x <? 0)%Z then "-" else "+") ++ digits (Nat.max 2 (S (Z.to_nat (exponent10 (Z.max 1 (Z.abs x)) 1)))) (Z.abs x))%string.

(** '%.*g' % (precision, x): a negative precision counts as zero, zero as one. *)
Definition format_g (precision : Z) (x : Q) : string :=
  let p := Z.max 1 precision in
  let a := Qnum x in
  let b := Zpos (Qden x) in
  if a =? 0 then "0"%string
  else
    let '(m, e) := significand p (Z.abs a) b in
    ((if (a <? 0)%Z then "-" else EmptyString) ++
     (if ((-4 <=? e) && (e <? p))%Z then decimal (Z.to_nat (Z.max 1 (e + 1))) (Z.to_nat (p - 1 - e)) m
      else decimal 1 (Z.to_nat (p - 1)) m ++ exponent_text e))%string.

(** timing.py 24-38 *)
Definition format_time (dt : Q) (unit : option string) (precision : Z) : res string :=
  do u <- match unit with Some s => find_unit s | None => Ok (choose_unit [SEC; MS; US; NS] dt NS) end;
  Ok (format_g precision (rescale u dt) ++ unit_name u)%string.

(* ---------- timeit ---------- *)

(** timing.py 90-91 *)
Definition choose_number (inner taken : Q) (number : Z) : res Z :=
  if Qnum taken =? 0 then Err ZeroDivisionError
  else Ok ((Qfloor (inner / taken) + 1) * number).

Definition qmin (a b : Q) : Q := if Qle_bool a b then a else b.
Definition qmax (a b : Q) : Q := if Qle_bool a b then b else a.
Definition qsum (l : list Q) : Q := fold_right Qplus 0%Q l.
(** np.mean *)
Definition mean (l : list Q) : Q := (qsum l / inject_Z (Z.of_nat (length l)))%Q.

Fixpoint insert (a : Q) (l : list Q) : list Q :=
  match l with [] => [a] | b :: t => if Qle_bool a b then a :: l else b :: insert a t end.
Fixpoint sorted_of (l : list Q) : list Q := match l with [] => [] | a :: t => insert a (sorted_of t) end.
(** np.median: the mean of the one or two elements in the middle. *)
Definition median (l : list Q) : Q :=
  let s := sorted_of l in
  let n := length l in
  if Nat.even n then ((nth (Nat.pred (Nat.div2 n)) s 0 + nth (Nat.div2 n) s 0) / inject_Z 2)%Q else nth (Nat.div2 n) s 0%Q.
(** The square of np.std. *)
Definition variance (l : list Q) : Q := mean (map (fun a => ((a - mean l) * (a - mean l))%Q) l).

Record timings := mkTimings { t_min : Q; t_max : Q; t_mean : Q; t_median : Q; t_var : Q; t_number : Z; t_repeats : Z }.

(** timing.py 94-106, 119 for number > 0: the results and whether the warning is given. ValueError from np.min of nothing (98). *)
Definition summarise (times : list Q) (number : Z) : res (timings * bool) :=
  let l := map (fun t => (t / inject_Z number)%Q) times in
  match l with
  | [] => Err ValueError
  | a :: t =>
      let mn := fold_left qmin t a in
      let mx := fold_left qmax t a in
      Ok (mkTimings mn mx (mean l) (median l) (variance l) number (Z.of_nat (length times)), Qle_bool (mn * inject_Z 4)%Q mx)
  end.

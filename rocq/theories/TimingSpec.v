(** Vocabulary for C70 (utils/timing.py): what a decimal string denotes, and decimal numbers of few digits. *)

From Coq Require Import String Ascii List ZArith QArith Qabs Bool.
Import ListNotations.
Open Scope Z_scope.

Definition digit_of (c : ascii) : option Z :=
  let n := Z.of_nat (nat_of_ascii c) in if (48 <=? n) && (n <=? 57) then Some (n - 48) else None.

(** Digits read from the left: the number read so far, how many, and the rest. *)
Fixpoint read (s : string) (v n : Z) : Z * Z * string :=
  match s with
  | EmptyString => (v, n, EmptyString)
  | String c t => match digit_of c with Some d => read t (10 * v + d) (n + 1) | None => (v, n, s) end
  end.

(** 10^k *)
Definition ten (k : Z) : Q := Qpower (10 # 1) k.

(** The exponent at the end of a number: nothing, or e, a sign and digits. *)
Definition read_exponent (s : string) : option Z :=
  match s with
  | EmptyString => Some 0
  | String "e" (String g t) =>
      match read t 0 0 with
      | (v, n, EmptyString) => if n =? 0 then None else if Ascii.eqb g "+" then Some v else if Ascii.eqb g "-" then Some (- v) else None
      | _ => None
      end
  | _ => None
  end.

Definition read_unsigned (s : string) : option Q :=
  let '(i, n, r) := read s 0 0 in
  if n =? 0 then None
  else
    let '(v, k, r') := match r with String "." t => read t i 0 | _ => (i, 0, r) end in
    match read_exponent r' with Some e => Some (inject_Z v * ten (e - k))%Q | None => None end.

(** The number a decimal string stands for. *)
Definition denotes (s : string) : option Q :=
  match s with String "-" t => option_map Qopp (read_unsigned t) | _ => read_unsigned s end.

(** Numbers with at most p significant digits. *)
Definition few_digits (p : Z) (q : Q) : Prop := exists m k, Z.abs m < 10 ^ p /\ (q == inject_Z m * ten k)%Q.

(** [r] has at most p digits, and no number with at most p digits is closer to [x]. *)
Definition closest (p : Z) (x r : Q) : Prop :=
  few_digits p r /\ forall y, few_digits p y -> (Qabs (x - r) <= Qabs (x - y))%Q.

(** The units of time: what one of them is in seconds. *)
Definition seconds (name : string) : option Q :=
  if String.eqb name "ns" then Some (1 # 1000000000)
  else if String.eqb name (String (ascii_of_nat 181) "s") then Some (1 # 1000000)
  else if String.eqb name "ms" then Some (1 # 1000)
  else if String.eqb name "s" then Some 1%Q
  else None.

(** At least half of the elements of [l], counted with multiplicity, satisfy [P]. *)
Definition at_least_half (P : Q -> bool) (l : list Q) : Prop := (length l <= 2 * length (filter P l))%nat.
(** [a] is in [l], up to the representation of rationals. *)
Definition among (a : Q) (l : list Q) : Prop := exists b, In b l /\ (a == b)%Q.

(** The text [s] is a decimal number followed by a unit of time, and says [q] seconds. *)
Definition shows (s : string) (q : Q) : Prop :=
  exists num name sec r, s = (num ++ name)%string /\ seconds name = Some sec /\ denotes num = Some r /\ (q == r * sec)%Q.

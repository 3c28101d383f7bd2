(** Model of what importing dreamstream does to the sets of func_coverage.py (lines 11, 14, 129-140) and of
    overrides.py 40-49 (implements).

    `import dreamstream` runs overrides.py (__init__.py 1), whose line 11 imports tensor.py, which imports func_coverage.py
    (tensor.py 10-18): func_coverage.py is complete before the first override is registered. A set is the list of what is
    put into it; the getters (func_coverage.py 16, 56) are not enumerated. *)

From Coq Require Import String List Bool.
From Verif Require Import Py Dispatch.
Import ListNotations.
Open Scope string_scope.
Open Scope list_scope.

(** The module's variables; customized is a dict in insertion order. [F]: the override functions. *)
Record coverage (F : Type) : Type := mkCoverage {
  customized : list (string * F);
  supported : list string;
  unsupported : list string;
  non_overrideable : list string
}.
Arguments mkCoverage {F}. Arguments customized {F}. Arguments supported {F}. Arguments unsupported {F}. Arguments non_overrideable {F}.

(** func_coverage.py 129-140, run when CUSTOMIZED_FUNCTIONS has the given keys; [flat] is FLAT_OVERRIDABLE_FUNCTIONS (11). `|`
    makes a new set out of the keys that are there. *)
Definition run_func_coverage {F} (flat : list string) (custom : list (string * F)) : coverage F :=
  let s := VALID ++ DEFAULT_VALID ++ DECOUPLE ++ RECOUPLE ++ INPLACE_RECOUPLE ++ map fst custom in
  mkCoverage custom s (filter (fun f => negb (mem f s)) flat) (filter (fun f => negb (mem f flat)) s).

(** CUSTOMIZED_FUNCTIONS[f] = g, overrides.py 46: an old entry keeps its place. *)
Fixpoint put {F} (f : string) (g : F) (l : list (string * F)) : list (string * F) :=
  match l with
  | [] => [(f, g)]
  | (f', g') :: r => if String.eqb f f' then (f', g) :: r else (f', g') :: put f g r
  end.

(** overrides.py 43-47: only the dict changes. *)
Definition implement {F} (c : coverage F) (p : string * F) : coverage F :=
  mkCoverage (put (fst p) (snd p) (customized c)) (supported c) (unsupported c) (non_overrideable c).

(** func_coverage.py 14 and 129-140, then the decorators in the order in which they run (overrides.py 52-813; later ones by a
    user of the library). *)
Definition imported {F} (flat : list string) (decorators : list (string * F)) : coverage F :=
  fold_left implement decorators (run_func_coverage flat []).

(** Vocabulary for C72 (warnings). *)

From Coq Require Import String List Bool.
From Verif Require Import Dispatch Warn.
Import ListNotations.

(** The classes of warnings: TorchStreamFallbackWarning is a TorchStreamWarning, that a RuntimeWarning, and all are Warnings. *)
Inductive is_a : category -> category -> Prop :=
| is_self c : is_a c c
| is_warning c : is_a c CatWarning
| stream_runtime : is_a CatStream CatRuntime
| fallback_stream : is_a CatFallback CatStream
| fallback_runtime : is_a CatFallback CatRuntime.

(** A warning of this package. *)
Definition ours (c : category) : Prop := is_a c CatStream.

(** The filter is for warnings of class [c] from the module [m]. *)
Definition is_for (f : wfilter) (c : category) (m : string) : Prop :=
  is_a c (f_cat f) /\ (f_module f = None \/ f_module f = Some m).

(** The first filter for them says [a], or there is none and [a] is "default". *)
Definition decides (l : list wfilter) (c : category) (m : string) (a : action) : Prop :=
  (exists pre f post, l = pre ++ f :: post /\ is_for f c m /\ f_action f = a /\ forall g, In g pre -> ~ is_for g c m) \/
  (a = ADefault /\ forall g, In g l -> ~ is_for g c m).

(** A warning: module, text, class and line. *)
Definition event : Type := string * string * category * nat.
Definition cat_of (e : event) : category := snd (fst e).

(** Warnings one after the other, with what happens to each. *)
Fixpoint play (st : wstate) (es : list event) : wstate * list outcome :=
  match es with
  | [] => (st, [])
  | (m, t, c, n) :: r => let '(st1, o) := emit st m t c n in let '(st2, os) := play st1 r in (st2, o :: os)
  end.

(** The states that can occur: from any filters, by warnings and changes of the filters. *)
Inductive reach : wstate -> Prop :=
| reach_start l v : reach (mkW l v (fun _ => mkR 0 []) [])
| reach_filters st l : reach st -> reach (set_filters st l)
| reach_warn st m t c n : reach st -> reach (fst (emit st m t c n)).

(** Nothing in a result is a StreamTensor. *)
Fixpoint no_stream {V} (o : @out V) : Prop :=
  match o with
  | DStream _ | DBare _ _ => False
  | DPlain _ _ | DVal _ => True
  | DTuple l => (fix all (l : list (@out V)) : Prop := match l with [] => True | x :: r => no_stream x /\ all r end) l
  end.

(** Vocabulary for C71 (lists of functions): parts of strings. *)

From Coq Require Import String Ascii List.
Import ListNotations.
Open Scope string_scope.

Definition occurs (sub s : string) : Prop := exists a b, s = (a ++ sub ++ b)%string.
Definition begins (pre s : string) : Prop := exists b, s = (pre ++ b)%string.
Definition ends (suf s : string) : Prop := exists a, s = (a ++ suf)%string.
(** A line of text. *)
Definition one_line (s : string) : Prop := ~ occurs (String (ascii_of_nat 10) EmptyString) s.
(** [sub] is in [s] at its end and nowhere before. *)
Definition only_at_end (sub s : string) : Prop := ends sub s /\ forall a b, s = (a ++ sub ++ b)%string -> b = EmptyString.

(** Vocabulary for the statements about patching and mode switching (Modes.v). *)

From Coq Require Import String List ZArith Bool Lia.
From Verif Require Import Py Meta Pad Conv Modes.
Import ListNotations.

Section ModesSpec.
Context {V : Type}.

(** All modules of a tree. *)
Fixpoint nodes (m : module V) : list (kind V * option (attrs V)) :=
  match m with Mod k a ch => (k, a) :: flat_map nodes ch end.

(** Every module of the tree satisfies [P]. *)
Definition every (P : kind V -> option (attrs V) -> Prop) (m : module V) : Prop :=
  forall k a, In (k, a) (nodes m) -> P k a.

(** A tree nobody has patched, and one that contains only supported modules. *)
Definition unpatched (m : module V) : Prop := every (fun _ a => a = None) m.
Definition supported (m : module V) : Prop := every (fun k _ => k <> KUnsupported) m.
Definition equipped (m : module V) : Prop := every (fun _ a => a <> None) m.

(** Module of the result that corresponds to a module before: same kind, related attributes, same place. *)
Definition nodewise (R : kind V -> option (attrs V) -> option (attrs V) -> Prop) (m m' : module V) : Prop :=
  Forall2 (fun x y => fst y = fst x /\ R (fst x) (snd x) (snd y)) (nodes m) (nodes m').

(** The mode a history asks for last (a patched module is offline). *)
Definition mode_after (es : list (event V)) : bool :=
  fold_left (fun b e => match e with Switch (Online b') => b' | Switch Offline => false | _ => b end) es false.

End ModesSpec.

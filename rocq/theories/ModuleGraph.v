(** Model of patching and mode switching on module objects that may be used in several places:
    dreamstream/patches/general.py 12-43, dreamstream/patches/modes.py 6-27, dreamstream/patches/conv.py 60-73, with
    nn.Module.apply and nn.Module.children (library code: children() gives each object of one parent once, also if it is
    registered under several names; apply visits the children first, then the module itself, and does not remember objects
    it has seen under another parent).

    Modules are objects with an identity; what patching adds to them is kept in a store.  The object graph is given by its
    unfolding from the top, a tree in which an object appears wherever it is used (graphs with cycles, on which apply does not
    end, have none).  Modes.v has the same functions for trees of different objects. *)

From Coq Require Import String List ZArith Bool Lia.
From Verif Require Import Py Meta Pad Conv Modes.
Import ListNotations.

Section ModuleGraph.
Context {V : Type}.

Inductive obj : Type := Obj (i : nat) (k : kind V) (children : list obj).
Definition oid (t : obj) : nat := match t with Obj i _ _ => i end.
Definition okind (t : obj) : kind V := match t with Obj _ k _ => k end.
Definition ochildren (t : obj) : list obj := match t with Obj _ _ ch => ch end.

(** What patching has added to each object; None: never patched. *)
Definition attr_store : Type := nat -> option (attrs V).
Definition set_attrs (s : attr_store) (i : nat) (a : attrs V) : attr_store := fun j => if Nat.eqb j i then Some a else s j.

Definition seen_before (i : nat) (seen : list nat) : bool := existsb (Nat.eqb i) seen.

(** A loop over nn.Module.children() that stops at the first exception. *)
Definition over_children (f : obj -> attr_store -> attr_store * option exn) : list nat -> list obj -> attr_store -> attr_store * option exn :=
  fix go seen l s :=
    match l with
    | [] => (s, None)
    | c :: r =>
        if seen_before (oid c) seen then go seen r s
        else match f c s with
             | (s', Some e) => (s', Some e)
             | (s', None) => go (oid c :: seen) r s'
             end
    end.

(** general.py 12-15 (patch). *)
Fixpoint patch_obj (t : obj) (s : attr_store) : attr_store * option exn :=
  match t with
  | Obj i k ch =>
      match over_children patch_obj [] ch s with
      | (s', Some e) => (s', Some e)
      | (s', None) => let '(a, r) := patch_module k (s' i) in (set_attrs s' i a, r)
      end
  end.

(** modes.py 11-14. *)
Fixpoint online_obj (b : bool) (t : obj) (s : attr_store) : attr_store * option exn :=
  match t with
  | Obj i k ch =>
      match s i with
      | None => (s, Some AttributeError)
      | Some a => over_children (online_obj b) [] ch (set_attrs s i (mkAttrs b (hooks a) (stream_buffer a)))
      end
  end.

(** forward of a module that applies one convolution object twice, in streaming mode: both calls use the same buffers
    (conv.py 13-57). *)
Definition applied_twice (c : conv_cfg V) (st : buffers V) (x : batch V) : res (batch V * buffers V) :=
  do '(y, st1) <- conv_call c st x;
  conv_call c st1 y.

Fixpoint run_twice (c : conv_cfg V) (st : buffers V) (xs : list (batch V)) : res (list (batch V)) :=
  match xs with
  | [] => Ok []
  | x :: r => do '(y, st') <- applied_twice c st x; do ys <- run_twice c st' r; Ok (y :: ys)
  end.

End ModuleGraph.
Arguments obj V : clear implicits.
Arguments attr_store V : clear implicits.

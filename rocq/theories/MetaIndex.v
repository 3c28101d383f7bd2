(** Model of the dispatch of StreamMetadata.__getitem__ (dreamstream/tensor.py 372-402) and of the ids shown by
    StreamMetadata.__repr__ (336-370).

    Simplifications: lists and tuples with bool elements are not modelled (for lists of bool as batch index see C01). *)

From Coq Require Import String List ZArith Bool Lia.
From Verif Require Import Py Meta Named.
Import ListNotations.
Open Scope Z_scope.

(** What can stand alone or in a sequence: the items of Named.v, a tuple of int, a tensor with two or more dimensions. *)
Inductive elt : Type :=
| EItem (i : item)
| ETup (l : list Z)
| ENd.

(** The argument of index_batch and of index_length. *)
Definition e_bidx (e : elt) : bidx :=
  match e with
  | EItem IEll => BScalar 0        (* not iterable: TypeError at 434 *)
  | EItem i => to_bidx i
  | ETup l => BTuple l
  | ENd => BNd
  end.
Definition e_lidx (e : elt) : lidx :=
  match e with EItem i => to_lidx i | ETup l => LInts l | ENd => LNd end.
Definition e_int (e : elt) : bool := match e with EItem (IInt _) => true | _ => false end.

(** An index expression. *)
Inductive mindex : Type :=
| MOne (i : item)                                 (* anything but a sequence; [IList] is a list of int *)
| MTen                                            (* integer tensor with two or more dimensions *)
| MSeq (tuple : bool) (l : list elt)              (* a tuple, or a list *)
| MMask2 (mask : list (list bool)) (ncols : nat)  (* 2-D BoolTensor *)
| MMaskNd.                                        (* BoolTensor with three or more dimensions *)

Definition some_meta (r : res meta) : res (option meta) := do m <- r; Ok (Some m).
Definition ints_of (l : list elt) : list Z := flat_map (fun e => match e with EItem (IInt i) => [i] | _ => [] end) l.

(** tensor.py 378-402 (index).  [None] stands for falling off the end of the function, which returns None. *)
Definition index_meta (m : meta) (ix : mindex) : res (option meta) :=
  match ix with
  | MSeq tuple l =>
      if negb (forallb e_int l)                                             (* 383 *)
      then match l with
           | [b; EItem INone] => some_meta (index_batch m (e_bidx b))       (* 385-386 *)
           | [EItem INone; t] => some_meta (index_length m (e_lidx t))      (* 387-388 *)
           | [b; t] => some_meta (do m' <- index_batch m (e_bidx b); index_length m' (e_lidx t))   (* 389-390 *)
           | _ => Ok None                                                   (* 383-392: no case *)
           end
      else if tuple
      then match l with
           | [b; t] => some_meta (do m' <- index_batch m (e_bidx b); index_length m' (e_lidx t))   (* 397-398 *)
           | _ => Err TypeError                                             (* 401-402 *)
           end
      else some_meta (index_batch m (BInts (ints_of l)))                    (* 395-396 *)
  | MMask2 mask n => some_meta (index_batch_and_length m mask n)            (* 393-394 *)
  | MMaskNd => Err ValueError                                               (* 393-394, 464-465 *)
  | MTen => some_meta (index_batch m BNd)                                   (* 395-396 *)
  | MOne INone => Ok (Some (clone m))                                       (* 399-400 *)
  | MOne IEll => Err TypeError                                              (* 401-402 *)
  | MOne i => some_meta (index_batch m (to_bidx i))                         (* 395-396 *)
  end.

(* ---- __repr__ *)

(** What repr says about the ids: all of them, or some first ones and the last. *)
Inductive shown : Type :=
| All (l : list string)
| Some_first (l : list string) (last : string).

Section Repr.
(** The length of repr(id), for ids of which only the number of characters matters: Python's quoting is not modelled. *)
Context (rl : string -> Z).

(** 354-358: the loop; [fuel] bounds the number of rounds. *)
Fixpoint show_loop (ids : list string) (fuel i : nat) (length : Z) (acc : list string) : res (list string) :=
  match fuel with
  | O => Err Undefined
  | S fuel' =>
      if length <? 80
      then match nth_error ids i, nth_error ids (S i) with
           | Some a, Some b => show_loop ids fuel' (S i) (length + rl b + 2) (acc ++ [a])
           | _, _ => Err IndexError
           end
      else Ok acc
  end.

(** 347-362: the ids shown. *)
Definition show_ids (ids : list string) : res shown :=
  if zsum (map (fun s => Z.of_nat (String.length s)) ids) >? 80
  then match ids with
       | [] => Err IndexError                                               (* self.ids[-1] *)
       | a :: _ =>
           let last := List.last ids a in
           match nth_error ids 1 with
           | None => Err IndexError                                         (* 352: self.ids[1] *)
           | Some b =>
               do l <- show_loop ids (S (List.length ids)) 1 (rl a + rl last + 7 + rl b) [a];
               Ok (Some_first l last)
           end
       end
  else Ok (All ids).
End Repr.

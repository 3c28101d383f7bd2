(** Model of x[...] with a Python list of bool on StreamTensors (dreamstream/overrides.py 476-572, dreamstream/tensor.py 404-440).

    torch reads the list as a mask of one dimension, determine_dims_affected_by_indexing describes it like a 1-D tensor
    (overrides.py 431-434, as [IMask] in Named.v), and the metadata uses it twice: as integers for the ids (tensor.py 434) and as
    a mask for the rest (436-439).  In this file [IMask] in an index stands for the Python list; it must not be empty, since the
    empty list is a list of int.  A list of bool along the length dimension goes to the numba functions, whose typing for arrays
    of bool is not modelled (Undefined). *)

From Coq Require Import String List ZArith Bool Lia.
From Verif Require Import Py Meta Named.
Import ListNotations.
Open Scope Z_scope.

Section BoolList.
Context {V : Type}.

(** tensor.py 404-440: the item as index_batch gets it. *)
Definition bools_bidx (i : item) : bidx := match i with IMask m => BBools m | _ => to_bidx i end.

Definition is_bools (i : item) : bool := match i with IMask _ => true | _ => false end.

(** overrides.py 476-572 (__getitem__). *)
Definition getitem_bools (x : @stensor V) (ix : index) : res (@stensor V) :=
  do t' <- torch_getitem (tn x) ix;                                            (* 511 *)
  do '(items, aff, new_names, multi) <- determine_dims (names x) ix;           (* 513-520 *)
  do bd <- names_index (Some BATCH) (names x);                                 (* 522 *)
  do ld <- names_index (Some LENGTH) (names x);
  let ba := nat_mem bd aff in
  let la := nat_mem ld aff in
  do nn <- refine_names (ndim t') new_names;
  if negb (ba || la) then Ok (mkSt t' nn (clone (smeta x)))                    (* 527-529 *)
  else
    let item_of d := if multi then nth d items INone else nth O items INone in
    let b := if ba then bools_bidx (item_of bd) else BNone in
    if la && is_bools (item_of ld) then do _ <- index_batch (smeta x) b; Err Undefined
    else
      let l := if la then to_lidx (item_of ld) else LNone in
      do m' <- index_pair (smeta x) b l;                                       (* 572 *)
      Ok (mkSt t' nn m').
End BoolList.

(** What an index with one Python list of bool is (C92). *)

From Coq Require Import String List ZArith Bool Lia.
From Verif Require Import Py Meta MetaSpec Named.
Import ListNotations.
Open Scope Z_scope.

(** The index has the list [bs] for dimension [d] and no other list of bool or Ellipsis. *)
Inductive bool_list_at : index -> nat -> list bool -> Prop :=
| BL_one bs : bool_list_at (Single (IMask bs)) 0 bs
| BL_tuple pre bs post : ~ In IEll (pre ++ post) -> (forall m, ~ In (IMask m) (pre ++ post)) ->
    bool_list_at (Tuple (pre ++ IMask bs :: post)) (length pre) bs.

(** The same metadata under other ids. *)
Definition renamed (i : list string) (m : meta) : meta := mkMeta i (sos m) (eos m) (lens m) (chs m).

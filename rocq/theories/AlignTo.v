(** Model of Tensor.align_to on a StreamTensor: func_coverage.py 61 lists it among the DEFAULT_VALID_FUNCTIONS, so
    torch's own function runs on the named tensor and the metadata is put back unchanged (dreamstream/tensor.py 816-836).

    torch's align_to: every dimension must have a name that is among [target]; the result has the dimensions [target] in
    that order, new ones of size 1. Library code (aten/src/ATen/native/NamedTensor.cpp). Not modelled: an Ellipsis among the
    names, and None among them ([Undefined]). *)

From Coq Require Import String List ZArith Bool Lia.
From Verif Require Import Py Meta Named.
Import ListNotations.
Open Scope Z_scope.

Section AlignTo.
Context {V : Type}.
Notation stensor := (@stensor V).

Definition align_to (x : stensor) (target : list dname) : res stensor :=
  if names_mem None target then Err Undefined
  else if names_mem None (names x) then Err RuntimeError
  else if negb (forallb (fun n => names_mem n target) (names x)) then Err RuntimeError
  else if names_dup target then Err RuntimeError
  else
    let sizes := map (fun n => match names_index n (names x) with Ok d => size (tn x) d | Err _ => 1 end) target in
    let from ix := map (fun n => match names_index n target with Ok k => nth k ix 0 | Err _ => 0 end) (names x) in
    Ok (mkSt (mkTn sizes (fun ix => at_ (tn x) (from ix))) target (smeta x)).

End AlignTo.

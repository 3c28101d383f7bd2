(** Python and torch primitives used by the model.

    These definitions model the language / library primitives that the code in
    /repo is written in (they are part of the trusted base, DESIGN.md section 2);
    each comment names the places of /repo where the primitive is used. *)

From Coq Require Import String List ZArith Bool Lia.
Import ListNotations.
Open Scope Z_scope.

(** Exception classes raised by the modelled code (raise statements of
    dreamstream/tensor.py 140, 413, 530, 548, 619-634, 657, 689, 828, 1047;
    dreamstream/overrides.py 32, 76, 86, 147, 230; and those raised by torch and
    numpy primitives).  [Undefined] stands for numba reading outside an array
    (dreamstream/utils/numba.py 9-10 on an empty array). *)
Inductive exn : Type :=
| ValueError | TypeError | IndexError | AttributeError | RuntimeError
| NotImplementedError | AssertionError | KeyError | ZeroDivisionError
| StopIteration | UnboundLocalError | Undefined.

(** Result of a Python computation: a value or a raised exception. *)
Inductive res (A : Type) : Type :=
| Ok (a : A)
| Err (e : exn).
Arguments Ok {A} a.
Arguments Err {A} e.

Definition bind {A B} (r : res A) (f : A -> res B) : res B :=
  match r with Ok a => f a | Err e => Err e end.

Notation "'do' x <- r ; k" := (bind r (fun x => k))
  (at level 200, x name, r at level 100, k at level 200, right associativity).
Notation "'do' ' p <- r ; k" := (bind r (fun x => match x with p => k end))
  (at level 200, p pattern, r at level 100, k at level 200, right associativity).

(** Sequential evaluation of a list of computations, stopping at the first
    exception (list comprehensions, e.g. tensor.py 434, 698). *)
Fixpoint seqM {A} (l : list (res A)) : res (list A) :=
  match l with
  | [] => Ok []
  | r :: t => do a <- r; do r' <- seqM t; Ok (a :: r')
  end.

Definition mapM {A B} (f : A -> res B) (l : list A) : res (list B) := seqM (map f l).

(** len of a list as an integer. *)
Definition zlen {A} (l : list A) : Z := Z.of_nat (List.length l).

(** Python slice objects (tensor.py 431, 518; overrides.py 583-585). *)
Record pslice : Type := mkSlice { sl_start : option Z; sl_stop : option Z; sl_step : option Z }.

(** CPython's PySlice_AdjustIndices / slice.indices(len) (tensor.py 520; also the
    clamping rule of list and torch slicing, tensor.py 432-439). *)
Definition slice_indices (s : pslice) (len : Z) : res (Z * Z * Z) :=
  let step := match sl_step s with None => 1 | Some k => k end in
  if step =? 0 then Err ValueError
  else if len <? 0 then Err ValueError
  else
    let lower := if step <? 0 then -1 else 0 in
    let upper := if step <? 0 then len - 1 else len in
    let adjust v := if v <? 0 then Z.max (v + len) lower else Z.min v upper in
    let start := match sl_start s with
                 | None => if step <? 0 then upper else lower
                 | Some v => adjust v end in
    let stop := match sl_stop s with
                | None => if step <? 0 then lower else upper
                | Some v => adjust v end in
    Ok (start, stop, step).

(** range(start, stop, step) for step <> 0 (tensor.py 660, 692). *)
Definition range_len (start stop step : Z) : nat :=
  if 0 <? step then Z.to_nat ((stop - start + step - 1) / step)
  else Z.to_nat ((start - stop - step - 1) / (- step)).

Definition py_range (start stop step : Z) : list Z :=
  map (fun i => start + Z.of_nat i * step) (seq 0 (range_len start stop step)).

(** l[i] for a Python list or 1-D tensor: negative indices count from the end,
    anything out of range raises IndexError (tensor.py 424, 434). *)
Definition py_getitem {A} (l : list A) (i : Z) : res A :=
  let j := if i <? 0 then i + zlen l else i in
  if j <? 0 then Err IndexError
  else match nth_error l (Z.to_nat j) with
       | Some a => Ok a
       | None => Err IndexError
       end.

(** [l[i] for i in is] and tensor[is] for a list of integers (tensor.py 425-428, 434-439). *)
Definition py_gather {A} (l : list A) (is : list Z) : res (list A) :=
  mapM (py_getitem l) is.

(** l[start:stop:step] for a Python list (tensor.py 432). *)
Definition list_slice {A} (l : list A) (s : pslice) : res (list A) :=
  do '(start, stop, step) <- slice_indices s (zlen l);
  py_gather l (py_range start stop step).

(** t[start:stop:step] for a 1-D tensor: torch rejects steps <= 0 with ValueError and
    otherwise selects like Python (tensor.py 436-439). *)
Definition tensor_slice {A} (l : list A) (s : pslice) : res (list A) :=
  match sl_step s with
  | Some k => if k <=? 0 then Err ValueError else list_slice l s
  | None => list_slice l s
  end.

(** t[mask] for a 1-D tensor and a 1-D BoolTensor: IndexError unless the sizes agree
    (tensor.py 417-420). *)
Fixpoint select_mask {A} (l : list A) (m : list bool) : list A :=
  match l, m with
  | a :: l', b :: m' => if b then a :: select_mask l' m' else select_mask l' m'
  | _, _ => []
  end.

Definition tensor_mask {A} (l : list A) (m : list bool) : res (list A) :=
  if Nat.eqb (List.length l) (List.length m) then Ok (select_mask l m) else Err IndexError.

(** torch clip/clamp(min=lo, max=hi); when lo > hi the result is hi
    (tensor.py 510, 529, 533). *)
Definition clip (x lo hi : Z) : Z := Z.min (Z.max x lo) hi.

(** x.div(k).ceil() for k > 0 (tensor.py 533), without float32 rounding (see F32.v). *)
Definition ceil_div (x k : Z) : Z := - ((- x) / k).

(** max() / min() of a 1-D tensor; RuntimeError when empty (tensor.py 237-238, 687). *)
Definition zmax (l : list Z) : res Z :=
  match l with [] => Err RuntimeError | a :: t => Ok (fold_left Z.max t a) end.
Definition zmin (l : list Z) : res Z :=
  match l with [] => Err RuntimeError | a :: t => Ok (fold_left Z.min t a) end.

(** any() / all() of a bool tensor (tensor.py 291-294). *)
Definition any_true (l : list bool) : bool := existsb (fun b => b) l.
Definition all_true (l : list bool) : bool := forallb (fun b => b) l.

(** Sum of a Python list of integers (tensor.py 656, 688). *)
Definition zsum (l : list Z) : Z := fold_right Z.add 0 l.

(** np.cumsum (tensor.py 663, 695). *)
Fixpoint cumsum_from (acc : Z) (l : list Z) : list Z :=
  match l with [] => [] | a :: t => (acc + a) :: cumsum_from (acc + a) t end.
Definition cumsum (l : list Z) : list Z := cumsum_from 0 l.

(** Decidable equality of lists, used for == on lists and torch equal()
    (tensor.py 324-329, 618). *)
Fixpoint list_eqb {A} (eqb : A -> A -> bool) (l1 l2 : list A) : bool :=
  match l1, l2 with
  | [], [] => true
  | a :: t1, b :: t2 => eqb a b && list_eqb eqb t1 t2
  | _, _ => false
  end.

Fixpoint list_set {A} (l : list A) (n : nat) (x : A) : list A :=
  match l, n with
  | [], _ => []
  | _ :: t, O => x :: t
  | a :: t, S n' => a :: list_set t n' x
  end.

(** list(zip(l1, l2)) truncating at the shorter. *)
Fixpoint zip {A B} (l1 : list A) (l2 : list B) : list (A * B) :=
  match l1, l2 with
  | a :: t1, b :: t2 => (a, b) :: zip t1 t2
  | _, _ => []
  end.

(** Removes the last element (l[:-1]). *)
Definition init {A} (l : list A) : list A := removelast l.

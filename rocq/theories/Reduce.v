(** Functions without a rule of their own: softmax, cumsum, sum, mean and the like.

    None of these is in a table of func_coverage.py that gives it a rule (softmax is in DEFAULT_VALID_FUNCTIONS, the others in
    none), so StreamTensor.__torch_function__ (tensor.py 774-814) hands them to default_valid (tensor.py 816-836), modelled in
    Dispatch.v.  Here are torch's own functions on a named tensor; they are models of library code and part of the
    trusted base.  Simplifications:
    - a function along a dimension is any function on lists that keeps the length, a reduction any function from a list to
      a value; dtypes and rounding are not modelled;
    - functions that return a tuple (max, min, median along a dimension) are not modelled here (C24 has tuples). *)

From Coq Require Import String List ZArith Bool.
From Verif Require Import Py Named Dispatch.
Import ListNotations.
Open Scope Z_scope.

(** A dimension given by number or by name. *)
Inductive dref : Type :=
| DNum (d : Z)
| DNam (s : string).

(** torch's maybe_wrap_dim and dimname_to_position: IndexError for a number, RuntimeError for a name that is not there. *)
Definition resolve (nd : nat) (nms : list dname) (r : dref) : res nat :=
  match r with
  | DNum d => norm_dim nd d
  | DNam s => match names_index (Some s) nms with Ok k => Ok k | Err _ => Err RuntimeError end
  end.

Section Reduce.
Context {V : Type}.

(** Values along dimension [d] through position [ix]. *)
Definition t_line (t : @tensor V) (d : nat) (ix : list Z) : list V :=
  map (fun p => at_ t (list_set ix d p)) (dim_positions (size t d)).

(** [f] applied along dimension [d]. *)
Definition t_along (f : list V -> list V) (t : @tensor V) (d : nat) : @tensor V :=
  mkTn (shp t) (fun ix => nth (Z.to_nat (nth d ix 0)) (f (t_line t d ix)) (at_ t ix)).

(** torch.softmax(t, dim), torch.cumsum(t, dim), ...: the names stay. *)
Definition torch_along (f : list V -> list V) (t : @tensor V) (nms : list dname) (r : dref) : res (@rout V) :=
  do d <- resolve (ndim t) nms r;
  Ok (RTen (t_along f t d) nms).

(** Which of [nd] dimensions are in [ds]. *)
Definition dim_flags (nd : nat) (ds : list nat) : list bool := map (fun k => existsb (Nat.eqb k) ds) (seq 0 nd).

(** The positions that are combined into position [ix] of the result, in row-major order. *)
Fixpoint t_fiber (keep : bool) (red : list bool) (s ix : list Z) : list (list Z) :=
  match red, s with
  | true :: red', n :: s' =>
      flat_map (fun p => map (cons p) (t_fiber keep red' s' (if keep then tl ix else ix))) (dim_positions n)
  | false :: red', _ :: s' => map (cons (hd 0 ix)) (t_fiber keep red' s' (tl ix))
  | _, _ => [[]]
  end.

(** What is left of a list with one entry per dimension. *)
Fixpoint left_over {A} (red : list bool) (l : list A) : list A :=
  match red, l with
  | true :: red', _ :: l' => left_over red' l'
  | false :: red', a :: l' => a :: left_over red' l'
  | _, _ => l
  end.
Fixpoint ones (red : list bool) (s : list Z) : list Z :=
  match red, s with
  | true :: red', _ :: s' => 1 :: ones red' s'
  | false :: red', n :: s' => n :: ones red' s'
  | _, _ => s
  end.

(** [op] applied over the flagged dimensions, which disappear or, with keepdim, have size one. *)
Definition t_reduce (op : list V -> V) (t : @tensor V) (red : list bool) (keep : bool) : @tensor V :=
  mkTn (if keep then ones red (shp t) else left_over red (shp t))
       (fun ix => op (map (at_ t) (t_fiber keep red (shp t) ix))).

Fixpoint nat_dup (l : list nat) : bool :=
  match l with [] => false | a :: r => existsb (Nat.eqb a) r || nat_dup r end.

(** torch.sum(t, dim, keepdim) and the other reductions: without dimensions, over all; RuntimeError for a dimension given
    twice. *)
Definition torch_reduce (op : list V -> V) (t : @tensor V) (nms : list dname) (dims : list dref) (keep : bool) : res (@rout V) :=
  do ds <- mapM (resolve (ndim t) nms) dims;
  if nat_dup ds then Err RuntimeError
  else
    let red := match ds with [] => repeat true (ndim t) | _ => dim_flags (ndim t) ds end in
    Ok (RTen (t_reduce op t red keep) (if keep then nms else left_over red nms)).

(** torch.f(x, r) and torch.f(x, dims, keepdim) on a StreamTensor: tensor.py 774-836.  The dimensions are not tensors and
    are passed on as they are, so they are given with the function. *)
Definition no_override : string -> list (@arg V) -> @kwargs V -> res (@out V) := fun _ _ _ => Err Undefined.
Definition call_along (name : string) (f : list V -> list V) (x : @stensor V) (r : dref) : res (@out V) :=
  torch_function no_override name
    (fun args _ => match args with [RT t n] => torch_along f t n r | _ => Err TypeError end) [AStream x] [].
Definition call_reduce (name : string) (op : list V -> V) (x : @stensor V) (dims : list dref) (keep : bool) : res (@out V) :=
  torch_function no_override name
    (fun args _ => match args with [RT t n] => torch_reduce op t n dims keep | _ => Err TypeError end) [AStream x] [].

End Reduce.

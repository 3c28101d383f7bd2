(** Model of the object level of StreamMetadata: lazy construction (dreamstream/tensor.py 35-94), the
    cache slots (97-117, 166-178), the properties and setters (180-297), copying (299-319, 712-714) and the
    sharing of tensors between objects (slices of tensors are views, 436-440).

    Memory model.  A tensor is a reference to some positions of a storage; storages hold integers (bool
    tensors hold 0 and 1, read as "not 0").  Operations are functions from states to a result (a value or an
    exception) and a new state: an exception can leave a changed state behind, which matters for lazy
    construction.

    Not modelled here: dtypes except for the distinction "already of the dtype that __init__ asks for"
    (field [t_native]; 143-145), ids that are not strings and tensors of more than one dimension (155-159),
    scalar arguments (131-138; see Meta.v), sharing of the ids list (never changed in place by the library),
    chunk indices (Meta.v) and _temp_buffer (Conv.v). *)

From Coq Require Import String List ZArith Bool Lia.
From Verif Require Import Py.
Import ListNotations.
Open Scope Z_scope.

(** A tensor (or an argument of as_tensor): positions [t_offs] of storage [t_base]; [t_native] tells whether
    torch.as_tensor(t, dtype) of tensor.py 142-144 returns the very same object. *)
Record tref : Type := mkT { t_base : nat; t_offs : list nat; t_native : bool }.

Definition heap : Type := list (list Z).

(** Values of a tensor. *)
Definition tread (h : heap) (t : tref) : list Z :=
  map (fun o => nth o (nth (t_base t) h []) 0) (t_offs t).

(** In-place write of new values to a tensor. *)
Definition store (c : list Z) (ov : list (nat * Z)) : list Z :=
  fold_left (fun c x => list_set c (fst x) (snd x)) ov c.
Definition twrite (h : heap) (t : tref) (vs : list Z) : heap :=
  list_set h (t_base t) (store (nth (t_base t) h []) (zip (t_offs t) vs)).

(** A newly allocated tensor. *)
Definition talloc (h : heap) (vs : list Z) (native : bool) : tref * heap :=
  (mkT (length h) (seq 0 (length vs)) native, h ++ [vs]).

(** The slots of a StreamMetadata object (tensor.py 100-117); None is a slot that was never assigned.
    [o_mm]: _min_length and _max_length; [o_fl]: the six flags of 109-114. *)
Record obj : Type := mkObj {
  o_ids : option (list string);
  o_sos : option tref;
  o_eos : option tref;
  o_lens : option tref;
  o_mm : option (Z * Z);
  o_lupd : option bool;
  o_fl : option (bool * bool * bool * bool * bool * bool);
  o_fupd : option bool
}.

(** object.__new__(StreamMetadata), tensor.py 86: all slots unassigned. *)
Definition bare : obj := mkObj None None None None None None None None.

(** Constructor arguments kept by a LazyProxy (tensor.py 38-42). *)
Record cargs : Type := mkArgs {
  a_ids : list string; a_sos : tref; a_eos : tref; a_lens : tref; a_copy : bool }.

(** LazyProxy, tensor.py 35-87: the object is built at the first access. *)
Inductive proxy : Type :=
| Pending (a : cargs)
| Made (o : obj).

Record state : Type := mkSt { st_heap : heap; st_prox : list proxy }.

(** tensor.py 142-152: as_tensor, and clone when _copy_on_init and as_tensor returned the argument itself. *)
Definition convert (copy : bool) (h : heap) (t : tref) : tref * heap :=
  if t_native t && negb copy then (t, h) else talloc h (tread h t) true.

(** tensor.py 119-178 (__init__). *)
Definition init_obj (h : heap) (a : cargs) : res (obj * heap) :=
  if (Nat.eqb (length (a_ids a)) (length (t_offs (a_lens a)))
      && Nat.eqb (length (t_offs (a_lens a))) (length (t_offs (a_sos a)))
      && Nat.eqb (length (t_offs (a_sos a))) (length (t_offs (a_eos a))))%bool
  then
    let '(s, h1) := convert (a_copy a) h (a_sos a) in
    let '(e, h2) := convert (a_copy a) h1 (a_eos a) in
    let '(l, h3) := convert (a_copy a) h2 (a_lens a) in
    Ok (mkObj (Some (a_ids a)) (Some s) (Some e) (Some l) None (Some true) None (Some true), h3)
  else Err ValueError.

(** Replace the object behind proxy [p]. *)
Definition put (s : state) (p : nat) (o : obj) : state :=
  mkSt (st_heap s) (list_set (st_prox s) p (Made o)).

(** tensor.py 44-48, 85-87: every access first builds the object if _obj is None; _obj is assigned before
    __init__ runs, so that a failing __init__ leaves the bare object behind.  (An unknown [p] is a Python
    name that was never assigned: NameError, reported as KeyError.) *)
Definition touch (s : state) (p : nat) : res obj * state :=
  match nth_error (st_prox s) p with
  | None => (Err KeyError, s)
  | Some (Made o) => (Ok o, s)
  | Some (Pending a) =>
      match init_obj (st_heap s) a with
      | Ok (o, h) => (Ok o, put (mkSt h (st_prox s)) p o)
      | Err e => (Err e, put s p bare)
      end
  end.

(** Reading a slot that was never assigned raises AttributeError. *)
Definition slot {A} (o : option A) : res A :=
  match o with Some a => Ok a | None => Err AttributeError end.

(** The three tensor attributes. *)
Inductive fld : Type := FSos | FEos | FLens.

(** tensor.py 180-182, 189-191, 198-200. *)
Definition get_fld (o : obj) (f : fld) : res tref :=
  slot match f with FSos => o_sos o | FEos => o_eos o | FLens => o_lens o end.

(** tensor.py 184-187, 193-196, 202-205: assign and mark the cache as out of date. *)
Definition set_fld (o : obj) (f : fld) (t : tref) : obj :=
  match f with
  | FSos => mkObj (o_ids o) (Some t) (o_eos o) (o_lens o) (o_mm o) (o_lupd o) (o_fl o) (Some true)
  | FEos => mkObj (o_ids o) (o_sos o) (Some t) (o_lens o) (o_mm o) (o_lupd o) (o_fl o) (Some true)
  | FLens => mkObj (o_ids o) (o_sos o) (o_eos o) (Some t) (o_mm o) (Some true) (o_fl o) (o_fupd o)
  end.

Definition truth (z : Z) : bool := negb (z =? 0).

(** tensor.py 235-239 (_update_lengths). *)
Definition update_lengths (h : heap) (o : obj) : res obj :=
  do u <- slot (o_lupd o);
  if u
  then
    do t <- get_fld o FLens;
    do mn <- zmin (tread h t);
    do mx <- zmax (tread h t);
    Ok (mkObj (o_ids o) (o_sos o) (o_eos o) (o_lens o) (Some (mn, mx)) (Some false) (o_fl o) (o_fupd o))
  else Ok o.

(** tensor.py 289-297 (_update_logicals); when reading eos fails the flag stays set, so the partial
    assignments before it are never seen and are not modelled. *)
Definition update_logicals (h : heap) (o : obj) : res obj :=
  do u <- slot (o_fupd o);
  if u
  then
    do ts <- get_fld o FSos;
    do te <- get_fld o FEos;
    let s := map truth (tread h ts) in
    let e := map truth (tread h te) in
    let as_ := any_true s in
    let ae := any_true e in
    let ls := all_true s in
    let le := all_true e in
    Ok (mkObj (o_ids o) (o_sos o) (o_eos o) (o_lens o) (o_mm o) (o_lupd o)
              (Some (as_, ae, ls, le, as_ || ae, ls && le)) (Some false))
  else Ok o.

(** Attributes that can be read. *)
Inductive getter : Type :=
| GIds | GLen | GSos | GEos | GLens | GStarting | GEnding | GMin | GMax
| GAnyStarting | GAnyEnding | GAllStarting | GAllEnding | GAnyStartingOrEnding | GAllStartingAndEnding.

Inductive out : Type :=
| OUnit | OIds (l : list string) | OBools (l : list bool) | OInts (l : list Z)
| OInt (z : Z) | OBool (b : bool) | ONew (p : nat).

(** tensor.py 241-243, 250-252: lengths[mask]. *)
Definition masked_lengths (h : heap) (o : obj) (f : fld) : res (list Z) :=
  do tl <- get_fld o FLens;
  do tm <- get_fld o f;
  tensor_mask (tread h tl) (map truth (tread h tm)).

(** tensor.py 215-233, 259-287. *)
Definition length_summary (h : heap) (o : obj) (f : Z * Z -> Z) : res out * obj :=
  match update_lengths h o with
  | Err e => (Err e, o)
  | Ok o' => (do m <- slot (o_mm o'); Ok (OInt (f m)), o')
  end.
Definition flag_summary (h : heap) (o : obj) (f : bool * bool * bool * bool * bool * bool -> bool) : res out * obj :=
  match update_logicals h o with
  | Err e => (Err e, o)
  | Ok o' => (do m <- slot (o_fl o'); Ok (OBool (f m)), o')
  end.

(** tensor.py 180-287, 332-334: reading an attribute of a built object. *)
Definition read (h : heap) (o : obj) (g : getter) : res out * obj :=
  match g with
  | GIds => (do i <- slot (o_ids o); Ok (OIds i), o)
  | GLen => (do i <- slot (o_ids o); Ok (OInt (zlen i)), o)
  | GSos => (do t <- get_fld o FSos; Ok (OBools (map truth (tread h t))), o)
  | GEos => (do t <- get_fld o FEos; Ok (OBools (map truth (tread h t))), o)
  | GLens => (do t <- get_fld o FLens; Ok (OInts (tread h t)), o)
  | GStarting => (do l <- masked_lengths h o FSos; Ok (OInts l), o)
  | GEnding => (do l <- masked_lengths h o FEos; Ok (OInts l), o)
  | GMin => length_summary h o fst
  | GMax => length_summary h o snd
  | GAnyStarting => flag_summary h o (fun '(a, _, _, _, _, _) => a)
  | GAnyEnding => flag_summary h o (fun '(_, a, _, _, _, _) => a)
  | GAllStarting => flag_summary h o (fun '(_, _, a, _, _, _) => a)
  | GAllEnding => flag_summary h o (fun '(_, _, _, a, _, _) => a)
  | GAnyStartingOrEnding => flag_summary h o (fun '(_, _, _, _, a, _) => a)
  | GAllStartingAndEnding => flag_summary h o (fun '(_, _, _, _, _, a) => a)
  end.

(** Tensors given to a constructor or a setter: a new one (or a Python list) with values [l], or the tensor
    that attribute [f] of object [q] returns. *)
Inductive src : Type :=
| New (l : list Z) (native : bool)
| Alias (q : nat) (f : fld).

(** Right-hand sides of in-place updates: a number or a 1-D tensor. *)
Inductive rhs : Type := RNum (k : Z) | RVec (l : list Z).

Inductive op : Type :=
| Create (i : list string) (s e l : src)        (* StreamMetadata(i, s, e, l) *)
| Get (p : nat) (g : getter)                    (* p.g *)
| Set_ (p : nat) (f : fld) (x : src)            (* p.f = x *)
| Aug (p : nat) (f : fld) (o : Z -> Z -> Z) (x : rhs)    (* p.f o= x *)
| SetAt (p : nat) (f : fld) (x : rhs)           (* p.starting_lengths = x (FSos), p.ending_lengths = x (FEos) *)
| AugAt (p : nat) (f : fld) (o : Z -> Z -> Z) (x : rhs)  (* p.starting_lengths o= x, ... *)
| Clone (p : nat)                               (* p.clone(), copy.deepcopy(p) *)
| Copy (p : nat)                                (* copy.copy(p) *)
| Slice (p : nat) (lo hi : nat).                (* p[lo:hi] along the batch, lo and hi non-negative *)

(** Tensor denoted by a source. *)
Definition source (s : state) (x : src) : res tref * state :=
  match x with
  | New l native => let '(t, h) := talloc (st_heap s) l native in (Ok t, mkSt h (st_prox s))
  | Alias q f =>
      match touch s q with
      | (Err e, s1) => (Err e, s1)
      | (Ok o, s1) => (get_fld o f, s1)
      end
  end.

(** Elementwise operation with broadcasting of a number or a one-element tensor. *)
Definition broadcast (n : nat) (x : rhs) : res (list Z) :=
  match x with
  | RNum k => Ok (repeat k n)
  | RVec [k] => Ok (repeat k n)
  | RVec l => if Nat.eqb (length l) n then Ok l else Err RuntimeError
  end.
Definition elementwise (f : Z -> Z -> Z) (v : list Z) (x : rhs) : res (list Z) :=
  do w <- broadcast (length v) x;
  Ok (map (fun ab => f (fst ab) (snd ab)) (zip v w)).

(** l[mask] = w for equally many values as true entries. *)
Fixpoint mask_put (l : list Z) (m : list bool) (w : list Z) : list Z :=
  match l, m with
  | a :: l', true :: m' => match w with
                           | b :: w' => b :: mask_put l' m' w'
                           | [] => a :: l'
                           end
  | a :: l', false :: m' => a :: mask_put l' m' w
  | _, _ => l
  end.

(** tensor.py 245-248, 254-257: `self._lengths[mask] = x` in place, then mark the cache as out of date. *)
Definition set_at (s : state) (p : nat) (o : obj) (f : fld) (x : rhs) : res out * state :=
  match (do tl <- get_fld o FLens; do tm <- get_fld o f; Ok (tl, tm)) with
  | Err e => (Err e, s)
  | Ok (tl, tm) =>
      let m := map truth (tread (st_heap s) tm) in
      let v := tread (st_heap s) tl in
      match (do sel <- tensor_mask v m; broadcast (length sel) x) with
      | Err e => (Err e, s)
      | Ok w => (Ok OUnit, put (mkSt (twrite (st_heap s) tl (mask_put v m w)) (st_prox s)) p (set_fld o FLens tl))
      end
  end.

(** A new proxy for constructor arguments (tensor.py 90-94: __new__ never runs __init__). *)
Definition push (s : state) (a : cargs) : res out * state :=
  (Ok (ONew (length (st_prox s))), mkSt (st_heap s) (st_prox s ++ [Pending a])).

(** Positions lo..hi-1 of a list or tensor. *)
Definition cut {A} (lo hi : nat) (l : list A) : list A := firstn (hi - lo) (skipn lo l).
Definition tcut (lo hi : nat) (t : tref) : tref := mkT (t_base t) (cut lo hi (t_offs t)) (t_native t).

(** Arguments with which an object builds a new one (299-319, 436-440). *)
Definition derive (o : obj) (cpy : bool) (fi : list string -> list string) (ft : tref -> tref) : res cargs :=
  do i <- slot (o_ids o);
  do s <- get_fld o FSos;
  do e <- get_fld o FEos;
  do l <- get_fld o FLens;
  Ok (mkArgs (fi i) (ft s) (ft e) (ft l) cpy).

Definition derived (s : state) (p : nat) (cpy : bool) (fi : list string -> list string) (ft : tref -> tref)
  : res out * state :=
  match touch s p with
  | (Err e, s1) => (Err e, s1)
  | (Ok o, s1) =>
      match derive o cpy fi ft with
      | Err e => (Err e, s1)
      | Ok a => push s1 a
      end
  end.

(** One operation. *)
Definition step (s : state) (c : op) : res out * state :=
  match c with
  | Create i xs xe xl =>
      match source s xs with
      | (Err e, s1) => (Err e, s1)
      | (Ok ts, s1) =>
          match source s1 xe with
          | (Err e, s2) => (Err e, s2)
          | (Ok te, s2) =>
              match source s2 xl with
              | (Err e, s3) => (Err e, s3)
              | (Ok tl, s3) => push s3 (mkArgs i ts te tl false)
              end
          end
      end
  | Get p g =>                                                     (* 44-48, 74-78 *)
      match touch s p with
      | (Err e, s1) => (Err e, s1)
      | (Ok o, s1) => let '(r, o') := read (st_heap s1) o g in (r, put s1 p o')
      end
  | Set_ p f x =>                                                  (* 50-54 *)
      match source s x with
      | (Err e, s1) => (Err e, s1)
      | (Ok t, s1) =>
          match touch s1 p with
          | (Err e, s2) => (Err e, s2)
          | (Ok o, s2) => (Ok OUnit, put s2 p (set_fld o f t))
          end
      end
  | Aug p f g x =>
      match touch s p with
      | (Err e, s1) => (Err e, s1)
      | (Ok o, s1) =>
          match get_fld o f with
          | Err e => (Err e, s1)
          | Ok t =>
              match elementwise g (tread (st_heap s1) t) x with
              | Err e => (Err e, s1)
              | Ok v => (Ok OUnit, put (mkSt (twrite (st_heap s1) t v) (st_prox s1)) p (set_fld o f t))
              end
          end
      end
  | SetAt p f x =>
      match touch s p with
      | (Err e, s1) => (Err e, s1)
      | (Ok o, s1) => set_at s1 p o f x
      end
  | AugAt p f g x =>
      match touch s p with
      | (Err e, s1) => (Err e, s1)
      | (Ok o, s1) =>
          match (do v <- masked_lengths (st_heap s1) o f; elementwise g v x) with
          | Err e => (Err e, s1)
          | Ok v => set_at s1 p o f (RVec v)
          end
      end
  | Clone p => derived s p true (fun i => i) (fun t => t)           (* 310-319, 712-714 *)
  | Copy p => derived s p false (fun i => i) (fun t => t)           (* 62-66, 299-308 *)
  | Slice p lo hi => derived s p false (cut lo hi) (tcut lo hi)     (* 431-440 *)
  end.

(** A history of operations: the results and the final state; an exception does not end the program. *)
Fixpoint run (s : state) (cs : list op) : list (res out) * state :=
  match cs with
  | [] => ([], s)
  | c :: t =>
      let '(r, s1) := step s c in
      let '(rs, s2) := run s1 t in
      (r :: rs, s2)
  end.

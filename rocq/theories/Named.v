(** Model of StreamTensor as a named tensor of any rank, and of the indexing and shape overrides of
    dreamstream/overrides.py.

    A tensor is a shape and a function from multi-indices to values.  Simplifications:
    - memory layout, views versus copies, dtypes, `out=` arguments and gradients are not modelled;
    - the torch primitives ([t_...], [torch_...]) are models of library code and part of the trusted base;
    - index expressions with two or more Ellipsis, two or more list/tensor indices, multi-dimensional index
      tensors or Python lists of bool are not modelled here (reported as [Undefined] where torch accepts them); FullIndex.v has them but for
      the lists of bool. *)

From Coq Require Import String List ZArith Bool Lia.
From Verif Require Import Py Meta.
Import ListNotations.
Open Scope Z_scope.

(** utils/flags.py 1-2. *)
Definition BATCH : string := "B".
Definition LENGTH : string := "L".

(** tensor.names: a name or None per dimension. *)
Definition dname : Type := option string.
Definition dname_eqb (a b : dname) : bool :=
  match a, b with
  | None, None => true
  | Some x, Some y => String.eqb x y
  | _, _ => false
  end.

(** names.index(n): position of the first occurrence, ValueError when absent (tensor.py 848-852;
    overrides.py 522-523, 716, 718). *)
Fixpoint names_index (n : dname) (l : list dname) : res nat :=
  match l with
  | [] => Err ValueError
  | a :: t => if dname_eqb a n then Ok O else do i <- names_index n t; Ok (S i)
  end.

(** Membership in a tuple of names. *)
Definition names_mem (n : dname) (l : list dname) : bool := existsb (dname_eqb n) l.

(** torch's check of a list of names (refine_names, rename, rename_): RuntimeError unless there is one name per
    dimension and no name occurs twice. *)
Fixpoint names_dup (l : list dname) : bool :=
  match l with
  | [] => false
  | None :: t => names_dup t
  | Some n :: t => names_mem (Some n) t || names_dup t
  end.

(** t.refine_names(names) on an unnamed tensor of rank [nd] (overrides.py 529, 572). *)
Definition refine_names (nd : nat) (l : list dname) : res (list dname) :=
  if Nat.eqb (List.length l) nd && negb (names_dup l) then Ok l else Err RuntimeError.

(** t.rename_(names) on an unnamed tensor of rank [nd] (overrides.py 103, 721, 822, 847, 858): no name at all
    leaves the tensor unnamed. *)
Definition rename (nd : nat) (l : list dname) : res (list dname) :=
  match l with [] => Ok (repeat None nd) | _ => refine_names nd l end.

(** A dimension number of a tensor of rank [nd]: negative ones count from the end, IndexError outside
    (torch's maybe_wrap_dim; Python's tuple indexing names[dim] has the same rule). *)
Definition norm_dim (nd : nat) (d : Z) : res nat :=
  let d' := if d <? 0 then d + Z.of_nat nd else d in
  if (d' <? 0) || (Z.of_nat nd <=? d') then Err IndexError else Ok (Z.to_nat d').

Section Named.
Context {V : Type}.

Record tensor : Type := mkTn { shp : list Z; at_ : list Z -> V }.

(** tensor.py 756-765: data with names, and metadata. *)
Record stensor : Type := mkSt { tn : tensor; names : list dname; smeta : meta }.

Definition ndim (t : tensor) : nat := List.length (shp t).
Definition size (t : tensor) (d : nat) : Z := nth d (shp t) 0.

(* ---- torch primitives on one dimension *)

(** Positions 0 .. n-1 of a dimension of size n. *)
Definition dim_positions (n : Z) : list Z := map Z.of_nat (seq 0 (Z.to_nat n)).

(** Removal and insertion in a list. *)
Definition remove_nth {A} (d : nat) (l : list A) : list A := firstn d l ++ skipn (S d) l.
Definition insert_nth {A} (d : nat) (a : A) (l : list A) : list A := firstn d l ++ a :: skipn d l.

(** Dimension [d] restricted to position [p] and removed (torch select). *)
Definition t_select (t : tensor) (d : nat) (p : Z) : tensor :=
  mkTn (remove_nth d (shp t)) (fun ix => at_ t (insert_nth d p ix)).

(** Dimension [d] re-indexed by the positions [ps] (torch slice, index_select, narrow). *)
Definition t_take (t : tensor) (d : nat) (ps : list Z) : tensor :=
  mkTn (list_set (shp t) d (zlen ps))
       (fun ix => at_ t (list_set ix d (nth (Z.to_nat (nth d ix 0)) ps 0))).

(** New dimension of size one before dimension [d]. *)
Definition t_unsqueeze (t : tensor) (d : nat) : tensor :=
  mkTn (insert_nth d 1 (shp t)) (fun ix => at_ t (remove_nth d ix)).

(* ---- torch indexing *)

(** One item of an index expression (overrides.py 259-260). *)
Inductive item : Type :=
| INone                       (* None *)
| IEll                        (* Ellipsis *)
| IInt (i : Z)                (* int *)
| ISlice (s : pslice)         (* slice *)
| IList (l : list Z)          (* list of ints *)
| ITen (l : list Z)           (* 1-D integer tensor *)
| IMask (m : list bool)       (* 1-D BoolTensor *)
| IScalar (i : Z).            (* 0-d integer tensor *)

(** The argument of x[...]: a single item, or a tuple. *)
Inductive index : Type :=
| Single (i : item)
| Tuple (l : list item).

Definition is_none (i : item) : bool := match i with INone => true | _ => false end.
Definition is_ell (i : item) : bool := match i with IEll => true | _ => false end.
Definition is_adv (i : item) : bool := match i with IList _ | ITen _ | IMask _ => true | _ => false end.

(** count_specified_dimensions of torch's indexing: items other than None and Ellipsis. *)
Definition specified (l : list item) : nat :=
  List.length (filter (fun i => negb (is_none i) && negb (is_ell i)) l).

(** torch's applySlicing: the items are applied from left to right; [d] is the current dimension of the
    partly indexed tensor, [gap] the number of dimensions an Ellipsis stands for.  A single list or tensor
    index is applied in place (torch collects them and applies them last, on the same dimension). *)
Fixpoint torch_apply (t : tensor) (d : nat) (gap : nat) (l : list item) : res tensor :=
  match l with
  | [] => Ok t
  | INone :: r => torch_apply (t_unsqueeze t d) (S d) gap r
  | IEll :: r => torch_apply t (d + gap) gap r
  | IInt i :: r | IScalar i :: r =>
      if Nat.leb (ndim t) d then Err IndexError
      else do p <- py_getitem (dim_positions (size t d)) i;
           torch_apply (t_select t d p) d gap r
  | ISlice s :: r =>
      if Nat.leb (ndim t) d then Err IndexError
      else do ps <- tensor_slice (dim_positions (size t d)) s;
           torch_apply (t_take t d ps) (S d) gap r
  | IList ks :: r | ITen ks :: r =>
      if Nat.leb (ndim t) d then Err IndexError
      else do ps <- py_gather (dim_positions (size t d)) ks;
           torch_apply (t_take t d ps) (S d) gap r
  | IMask b :: r =>
      if Nat.leb (ndim t) d then Err IndexError
      else do ps <- tensor_mask (dim_positions (size t d)) b;
           torch_apply (t_take t d ps) (S d) gap r
  end.

Definition torch_getitem (t : tensor) (ix : index) : res tensor :=
  let l := match ix with Single i => [i] | Tuple l => l end in
  if Nat.ltb 1 (List.length (filter is_ell l)) || Nat.ltb 1 (List.length (filter is_adv l)) then Err Undefined
  else if Nat.ltb (ndim t) (specified l) then Err IndexError
  else torch_apply t 0 (ndim t - specified l) l.

(* ---- overrides.py *)

(** overrides.py 272-274 (number_of_indexed_dimensions): items that are not None, Ellipsis included. *)
Definition number_of_indexed (l : list item) : nat := List.length (filter (fun i => negb (is_none i)) l).

(** indices.index(Ellipsis). *)
Fixpoint find_ell (l : list item) : option nat :=
  match l with
  | [] => None
  | i :: r => if is_ell i then Some O else option_map S (find_ell r)
  end.

Definition full_slice : item := ISlice (mkSlice None None None).

(** overrides.py 277-321 (replace_ellipsis), for at most one Ellipsis (two or more: not modelled).
    [slice(None) for _ in range(n)] is empty for negative n. *)
Definition replace_ellipsis (l : list item) (nd : nat) : list item :=
  match find_ell l with
  | None => l
  | Some k =>
      let missing := Z.of_nat nd - Z.of_nat (number_of_indexed l) + 1 in
      firstn k l ++ repeat full_slice (Z.to_nat missing) ++ skipn (S k) l
  end.

(** `indices == slice(None)`, overrides.py 388. *)
Definition is_full_slice (i : item) : bool :=
  match i with ISlice (mkSlice None None None) => true | _ => false end.

(** names[d] for a nonnegative position. *)
Definition name_at (l : list dname) (d : nat) : res dname :=
  match nth_error l d with Some n => Ok n | None => Err IndexError end.

(** overrides.py 343-459 (determine_dims_affected_by_indexing) with recursive_dim = d (383-431): the affected
    dimensions and the names that remain.  An Ellipsis has been replaced before. *)
Definition describe_item (nms : list dname) (d : nat) (i : item) : res (list nat * list dname) :=
  match i with
  | INone => Ok ([], [None])
  | IEll => Ok ([], nms)
  | IInt _ => Ok ([d], [])
  | ISlice _ =>
      do n <- name_at nms d;
      Ok (if is_full_slice i then [] else [d], [n])
  | IList _ | ITen _ | IMask _ | IScalar _ => do n <- name_at nms d; Ok ([d], [n])
  end.

(** overrides.py 442-445: the loop over the tuple; enumerate counts every item, None included. *)
Fixpoint describe_items (nms : list dname) (d : nat) (l : list item) : res (list nat * list dname) :=
  match l with
  | [] => Ok ([], [])
  | i :: r =>
      do '(a, n) <- describe_item nms d i;
      do '(a', n') <- describe_items nms (S d) r;
      Ok (a ++ a', n ++ n')
  end.

(** overrides.py 343-459: (items without Ellipsis, affected dimensions (flattened, 515-516), names,
    multidimensional).  Without recursion an item affects dimension 0 (383-431). *)
Definition determine_dims (nms : list dname) (ix : index) : res (list item * list nat * list dname * bool) :=
  match ix with
  | Single i =>
      match i with
      | INone => Ok ([i], [], None :: nms, false)
      | IEll => Ok ([i], [], nms, false)
      | IInt _ => Ok ([i], [O], tl nms, false)
      | ISlice _ => Ok ([i], if is_full_slice i then [] else [O], nms, false)
      | IList _ | ITen _ | IMask _ | IScalar _ => Ok ([i], [O], nms, false)
      end
  | Tuple l =>
      let l' := replace_ellipsis l (List.length nms) in
      do '(aff, new_names) <- describe_items nms O l';
      match l' with
      | [] => Err IndexError                                         (* 450: indices[-1] *)
      | _ =>
          let missing := (List.length nms - number_of_indexed l')%nat in   (* 449; only used if positive *)
          Ok (l', aff, new_names ++ skipn (List.length nms - missing) nms, true)
      end
  end.

(** An index item handed to StreamMetadata (tensor.py 404-460). *)
Definition to_bidx (i : item) : bidx :=
  match i with
  | INone => BNone
  | IInt k => BInt k
  | ISlice s => BSlice s
  | IList l | ITen l => BInts l
  | IMask m => BMask m
  | IScalar k => BScalar k
  | IEll => BNd
  end.
Definition to_lidx (i : item) : lidx :=
  match i with
  | INone => LNone
  | IInt k => LInt k
  | ISlice s => LSlice s
  | IList l | ITen l => LInts l
  | IMask m => LMask m
  | IScalar _ => LScalar
  | IEll => LScalar
  end.

Definition nat_mem (d : nat) (l : list nat) : bool := existsb (Nat.eqb d) l.

(** overrides.py 476-572 (__getitem__); 537-561 (multi-dimensional BoolTensors) not modelled. *)
Definition getitem (x : stensor) (ix : index) : res stensor :=
  do t' <- torch_getitem (tn x) ix;                                            (* 511 *)
  do '(items, aff, new_names, multi) <- determine_dims (names x) ix;           (* 513-520 *)
  do bd <- names_index (Some BATCH) (names x);                                 (* 522 *)
  do ld <- names_index (Some LENGTH) (names x);
  let ba := nat_mem bd aff in
  let la := nat_mem ld aff in
  do nn <- refine_names (ndim t') new_names;
  if negb (ba || la) then Ok (mkSt t' nn (clone (smeta x)))                    (* 527-529 *)
  else
    let item_of d := if multi then nth d items INone else nth O items INone in
    let b := if ba then to_bidx (item_of bd) else BNone in
    let l := if la then to_lidx (item_of ld) else LNone in
    do m' <- index_pair (smeta x) b l;                                         (* 572 *)
    Ok (mkSt t' nn m').

(** overrides.py 700-707 (select). *)
Definition select (x : stensor) (d : Z) (i : item) : res stensor :=
  let d := if d <? 0 then Z.of_nat (ndim (tn x)) + d else d in
  getitem x (Tuple (repeat full_slice (Z.to_nat d) ++ [i])).

(** torch.narrow(dim, start, length): start may be negative (RuntimeError / IndexError outside). *)
Definition torch_narrow (t : tensor) (d : nat) (start len : Z) : res tensor :=
  let n := size t d in
  if len <? 0 then Err RuntimeError
  else if (start <? - n) || (n <? start) then Err IndexError
  else
    let s := if start <? 0 then start + n else start in
    if n <? s + len then Err RuntimeError
    else Ok (t_take t d (map (fun i => s + i) (dim_positions len))).

(** overrides.py 576-589 (narrow). *)
Definition narrow (x : stensor) (d start len : Z) : res stensor :=
  do k <- norm_dim (ndim (tn x)) d;
  do t' <- torch_narrow (tn x) k start len;
  do n <- name_at (names x) k;
  let sl := mkSlice (Some start) (Some (start + len)) None in
  do m' <- (if dname_eqb n (Some BATCH) then index_batch (smeta x) (BSlice sl)
            else if dname_eqb n (Some LENGTH)
                 then index_pair (smeta x) (BSlice (mkSlice None None None)) (LSlice sl)
                 else Ok (clone (smeta x)));
  Ok (mkSt t' (names x) m').

(** Index of index_select: a vector, or a 0-d tensor. *)
Inductive ivec : Type :=
| IxVec (l : list Z)
| IxScalar (k : Z).

Definition ivec_list (v : ivec) : list Z := match v with IxVec l => l | IxScalar k => [k] end.

(** torch.index_select: positions must lie in 0 .. n-1 (no negative ones). *)
Definition torch_index_select (t : tensor) (d : nat) (v : ivec) : res tensor :=
  let n := size t d in
  if forallb (fun k => (0 <=? k) && (k <? n)) (ivec_list v)
  then Ok (t_take t d (ivec_list v)) else Err IndexError.

(** overrides.py 710-722 (index_select): `dim` is compared with the positions of "B" and "L" as given. *)
Definition index_select (x : stensor) (d : Z) (v : ivec) : res stensor :=
  do k <- norm_dim (ndim (tn x)) d;
  do t' <- torch_index_select (tn x) k v;
  do bd <- names_index (Some BATCH) (names x);
  do m' <- (if d =? Z.of_nat bd
            then index_batch (smeta x) (match v with IxVec l => BInts l | IxScalar i => BScalar i end)
            else
              do ld <- names_index (Some LENGTH) (names x);
              if d =? Z.of_nat ld
              then index_pair (smeta x) (BSlice (mkSlice None None None))
                              (match v with IxVec l => LInts l | IxScalar _ => LScalar end)
              else Ok (smeta x));
  do nn <- rename (ndim t') (names x);
  Ok (mkSt t' nn m').

(** tensor.nonzero().squeeze() of a vector: a 0-d tensor when exactly one element is left. *)
Definition nonzero_squeeze (l : list Z) : ivec :=
  match nonzero_from 0 (map (fun n => negb (n =? 0)) l) with
  | [k] => IxScalar k
  | ks => IxVec ks
  end.

(** tensor.py 887-896 (StreamTensor.drop_empty); None is returned when every stream is empty. *)
Definition st_drop_empty (x : stensor) : res (option stensor) :=
  do mn <- min_length (smeta x);
  do mx <- max_length (smeta x);
  if mn >? 0 then Ok (Some x)
  else if mx =? 0 then Ok None
  else if (meta_len (smeta x) =? 1) && (mx >? 0) then Ok (Some x)
  else
    do bd <- names_index (Some BATCH) (names x);
    do y <- index_select x (Z.of_nat bd) (nonzero_squeeze (lens (smeta x)));
    Ok (Some y).

(** list.insert(i, a): negative positions count from the end, everything is clamped (overrides.py 857). *)
Definition py_insert {A} (l : list A) (i : Z) (a : A) : list A :=
  let n := zlen l in
  let j := if i <? 0 then Z.max 0 (i + n) else Z.min i n in
  insert_nth (Z.to_nat j) a l.

(** overrides.py 851-859 (unqsqueeze). torch.unsqueeze accepts -(nd+1) <= dim <= nd. *)
Definition unsqueeze (x : stensor) (d : Z) : res stensor :=
  do k <- norm_dim (S (ndim (tn x))) d;
  let t' := t_unsqueeze (tn x) k in
  do nn <- rename (ndim t') (py_insert (names x) d None);
  Ok (mkSt t' nn (clone (smeta x))).

(** torch.squeeze(): all dimensions of size one are removed. *)
Definition t_squeeze1 (t : tensor) (d : nat) : tensor := t_select t d 0.

(** Removal of the listed dimensions, highest first. *)
Definition singles (s : list Z) : list nat :=
  map fst (filter (fun p => snd p =? 1) (combine (seq 0 (List.length s)) s)).
Definition t_squeeze_all (t : tensor) : tensor :=
  fold_right (fun d acc => t_squeeze1 acc d) t (singles (shp t)).

(** overrides.py 826-848 (squeeze). *)
Definition squeeze (x : stensor) (d : option Z) : res stensor :=
  match d with
  | None =>
      let t' := t_squeeze_all (tn x) in
      let remove := map snd (filter (fun p => fst p =? 1) (combine (shp (tn x)) (names x))) in
      do nn <- rename (ndim t') (filter (fun n => negb (names_mem n remove)) (names x));
      Ok (mkSt t' nn (clone (smeta x)))
  | Some d =>
      do k <- norm_dim (ndim (tn x)) d;
      if size (tn x) k =? 1
      then let t' := t_squeeze1 (tn x) k in
           do nn <- rename (ndim t') (remove_nth k (names x));
           Ok (mkSt t' nn (clone (smeta x)))
      else do nn <- rename (ndim (tn x)) (names x);
           Ok (mkSt (tn x) nn (clone (smeta x)))
  end.

(** The coordinates of position [p] in row-major order over the sizes [s]. *)
Definition zprod (s : list Z) : Z := fold_right Z.mul 1 s.
Fixpoint unravel (s : list Z) (p : Z) : list Z :=
  match s with
  | [] => []
  | _ :: r => (p / zprod r) :: unravel r (p mod zprod r)
  end.

(** torch.flatten of dimensions a..b of a tensor of positive rank: RuntimeError if a > b. *)
Definition torch_flatten (t : tensor) (a b : nat) : res tensor :=
  if Nat.ltb b a then Err RuntimeError
  else
    let mid := firstn (S b - a) (skipn a (shp t)) in
    Ok (mkTn (firstn a (shp t) ++ [zprod mid] ++ skipn (S b) (shp t))
             (fun ix => at_ t (firstn a ix ++ unravel mid (nth a ix 0) ++ skipn (S a) ix))).

(** "_".join(names): TypeError when a name is None (overrides.py 324-326). *)
Fixpoint join_dim_names (l : list dname) : res string :=
  match l with
  | [] => Ok EmptyString
  | [Some n] => Ok n
  | Some n :: r => do s <- join_dim_names r; Ok (n ++ "_" ++ s)%string
  | None :: _ => Err TypeError
  end.

(** names[:i] and names[i:] for a tuple. *)
Definition slice_to {A} (l : list A) (i : Z) : res (list A) := list_slice l (mkSlice None (Some i) None).
Definition slice_from {A} (l : list A) (i : Z) : res (list A) := list_slice l (mkSlice (Some i) None None).

(** overrides.py 810-823 (flatten); [inl] is a plain tensor (the fallback). A joined name must be a valid
    name: the empty string is not (RuntimeError). *)
Definition flatten (x : stensor) (s e : Z) : res (tensor + stensor) :=
  do a <- norm_dim (ndim (tn x)) s;
  do b <- norm_dim (ndim (tn x)) e;
  do t' <- torch_flatten (tn x) a b;
  do aff <- list_slice (names x) (mkSlice (Some s) (Some (e + 1)) None);
  if names_mem (Some BATCH) aff || names_mem (Some LENGTH) aff then Ok (inl t')
  else
    do j <- join_dim_names aff;
    do pre <- slice_to (names x) s;
    do post <- slice_from (names x) (e + 1);
    if String.eqb j EmptyString then Err RuntimeError
    else
      do nn <- rename (ndim t') (pre ++ [Some j] ++ post);
      Ok (inr (mkSt t' nn (clone (smeta x)))).

(** torch.permute: RuntimeError unless dims (after wrapping) is a permutation of all dimensions. *)
Fixpoint pos_in (d : nat) (l : list nat) : nat :=
  match l with [] => O | a :: r => if Nat.eqb a d then O else S (pos_in d r) end.
Definition torch_permute (t : tensor) (dims : list nat) : res tensor :=
  if Nat.eqb (List.length dims) (ndim t) && forallb (fun d => nat_mem d dims) (seq 0 (ndim t))
  then Ok (mkTn (map (size t) dims)
                (fun ix => at_ t (map (fun d => nth (pos_in d dims) ix 0) (seq 0 (ndim t)))))
  else Err RuntimeError.

(** overrides.py 93-98 (permute); the rename keeps the metadata (default_valid, tensor.py 816-836). *)
Definition permute (x : stensor) (dims : list Z) : res stensor :=
  do ds <- mapM (norm_dim (ndim (tn x))) dims;
  do t' <- torch_permute (tn x) ds;
  do ns <- mapM (py_getitem (names x)) dims;
  do nn <- rename (ndim t') ns;
  Ok (mkSt t' nn (smeta x)).

(** overrides.py 101-103 (Tensor.permute): x.permute(1, 0), or x.permute((1, 0)), for which `dims` is a tuple
    holding a tuple and names[(1, 0)] raises TypeError (a one-dimensional tuple included). *)
Inductive pargs : Type := PStar (l : list Z) | PTuple (l : list Z).
Definition tensor_permute (x : stensor) (a : pargs) : res stensor :=
  match a with
  | PStar l => permute x l
  | PTuple l =>
      do ds <- mapM (norm_dim (ndim (tn x))) l;
      do _ <- torch_permute (tn x) ds;
      Err TypeError
  end.

(** tensor.py 862-864 (T). *)
Definition transpose_all (x : stensor) : res stensor :=
  permute x (map Z.of_nat (rev (seq 0 (ndim (tn x))))).

(** torch's transpose of two dimensions, as a permutation of dimension numbers. *)
Definition swap_dims (nd a b : nat) : list nat :=
  map (fun d => if Nat.eqb d a then b else if Nat.eqb d b then a else d) (seq 0 nd).

(** torch.transpose on a StreamTensor: func_coverage.py 98 puts it among the RECOUPLE_FUNCTIONS (looked up before
    DEFAULT_VALID_FUNCTIONS, tensor.py 798-806), so names are removed before and put back unchanged after
    the call (tensor.py 1042-1050). *)
Definition torch_transpose (x : stensor) (d0 d1 : Z) : res stensor :=
  do a <- norm_dim (ndim (tn x)) d0;
  do b <- norm_dim (ndim (tn x)) d1;
  do t' <- torch_permute (tn x) (swap_dims (ndim (tn x)) a b);
  do nn <- rename (ndim t') (names x);
  Ok (mkSt t' nn (smeta x)).

(** Tensor.transpose: func_coverage.py 62, default_valid (tensor.py 816-836): torch swaps the names. *)
Definition method_transpose (x : stensor) (d0 d1 : Z) : res stensor :=
  do a <- norm_dim (ndim (tn x)) d0;
  do b <- norm_dim (ndim (tn x)) d1;
  do t' <- torch_permute (tn x) (swap_dims (ndim (tn x)) a b);
  Ok (mkSt t' (map (fun d => nth d (names x) None) (swap_dims (ndim (tn x)) a b)) (smeta x)).

(** tensor.split: consecutive pieces of dimension [d]. *)
Definition torch_split (t : tensor) (sz : ssize) (d : nat) : res (list tensor) :=
  do pss <- tensor_split sz (dim_positions (size t d));
  Ok (map (t_take t d) pss).

(** overrides.py 124-139 (split); tensor.py 639-645 (StreamMetadata.split). *)
Definition split (x : stensor) (sz : ssize) (d : Z) : res (list stensor) :=
  do k <- norm_dim (ndim (tn x)) d;
  do n <- name_at (names x) k;
  do ts <- torch_split (tn x) sz k;
  if dname_eqb n (Some LENGTH) then
    do ms <- split_length (smeta x) sz;
    Ok (map (fun p => mkSt (fst p) (names x) (snd p)) (zip ts ms))
  else if dname_eqb n (Some BATCH) then
    do ms <- split_batch (smeta x) sz;
    Ok (map (fun p => mkSt (fst p) (names x) (snd p)) (zip ts ms))
  else Ok (map (fun t => mkSt t (names x) (smeta x)) ts).

(** tensor.unbind. *)
Definition torch_unbind (t : tensor) (d : nat) : list tensor :=
  map (t_select t d) (dim_positions (size t d)).

(** overrides.py 142-163 (unbind). *)
Definition unbind (x : stensor) (d : Z) : res (list stensor) :=
  do k <- norm_dim (ndim (tn x)) d;
  do n <- name_at (names x) k;
  if dname_eqb n (Some LENGTH) then Err ValueError
  else if dname_eqb n (Some BATCH) then
    do ms <- unbind_batch (smeta x);
    let ts := torch_unbind (tn x) k in
    if Nat.eqb (List.length ts) (List.length ms)
    then Ok (map (fun p => mkSt (fst p) (remove_nth k (names x)) (snd p)) (zip ts ms))
    else Err AssertionError
  else Ok (map (fun t => mkSt t (remove_nth k (names x)) (smeta x)) (torch_unbind (tn x) k)).

(** Operands of torch.cat. *)
Inductive operand : Type :=
| OStream (x : stensor)
| OPlain (t : tensor).

Definition op_tensor (o : operand) : tensor := match o with OStream x => tn x | OPlain t => t end.
Definition op_names (o : operand) : list dname :=
  match o with OStream x => names x | OPlain t => repeat None (ndim t) end.
Definition op_meta (o : operand) : res meta := match o with OStream x => Ok (smeta x) | OPlain _ => Err AttributeError end.
Definition streams_of (l : list operand) : list stensor :=
  flat_map (fun o => match o with OStream x => [x] | OPlain _ => [] end) l.
Definition plains_of (l : list operand) : list tensor :=
  flat_map (fun o => match o with OStream _ => [] | OPlain t => [t] end) l.
Definition is_stream (o : operand) : bool := match o with OStream _ => true | OPlain _ => false end.

(** Unification of names of two operands: RuntimeError on a conflict. *)
Fixpoint unify_names (a b : list dname) : res (list dname) :=
  match a, b with
  | [], [] => Ok []
  | x :: a', y :: b' =>
      do n <- match x, y with
              | None, _ => Ok y
              | _, None => Ok x
              | Some p, Some q => if String.eqb p q then Ok x else Err RuntimeError
              end;
      do r <- unify_names a' b'; Ok (n :: r)
  | _, _ => Err RuntimeError
  end.

(** Equality of the sizes apart from dimension [d]. *)
Definition same_but (d : nat) (a b : list Z) : bool :=
  Nat.eqb (List.length a) (List.length b) && list_eqb Z.eqb (remove_nth d a) (remove_nth d b).

(** The value at position [ix] of a concatenation along [d]: look into the operand that covers it. *)
Fixpoint cat_at (d : nat) (t0 : tensor) (ts : list tensor) (ix : list Z) : V :=
  match ts with
  | [] => at_ t0 ix
  | t1 :: r =>
      let i := nth d ix 0 in
      if i <? size t0 d then at_ t0 ix
      else cat_at d t1 r (list_set ix d (i - size t0 d))
  end.

(** torch.cat of named tensors (the skipping of empty 1-D tensors is not modelled). *)
Definition torch_cat (l : list operand) (dim : Z) : res (tensor * list dname) :=
  match map op_tensor l with
  | [] => Err RuntimeError
  | t0 :: ts =>
      do d <- norm_dim (ndim t0) dim;
      if negb (forallb (fun t => same_but d (shp t0) (shp t)) ts) then Err RuntimeError
      else
        do nn <- fold_left (fun acc o => do a <- acc; unify_names a (op_names o)) (tl l)
                           (Ok (op_names (hd (OPlain t0) l)));
        Ok (mkTn (list_set (shp t0) d (zsum (map (fun t => size t d) (t0 :: ts)))) (cat_at d t0 ts), nn)
  end.

(** overrides.py 52-90 (cat). *)
Definition names_at_dim (x : stensor) (dim : Z) : res dname := py_getitem (names x) dim.

(** overrides.py 74-76: lengths.min() < max_length() for the operands before the last. *)
Fixpoint cat_padding_check (l : list operand) : res unit :=
  match l with
  | [] => Ok tt
  | OPlain _ :: r => cat_padding_check r
  | OStream x :: r =>
      do mn <- min_length (smeta x);
      do ld <- names_index (Some LENGTH) (names x);
      if mn <? size (tn x) ld then Err NotImplementedError else cat_padding_check r
  end.

(** overrides.py 84-86: every operand before the last must have the metadata of the first. *)
Fixpoint cat_same_meta (m0 : res meta) (l : list operand) : res unit :=
  match l with
  | [] => Ok tt
  | o :: r =>
      do m <- op_meta o;
      do m0' <- m0;
      do b <- meta_eq m m0';
      if b then cat_same_meta m0 r else Err ValueError
  end.

Definition cat (l : list operand) (dim : Z) : res operand :=
  match l with
  | [o] => Ok o                                                               (* 59-60 *)
  | _ =>
      do ns <- mapM (fun x => names_at_dim x dim) (streams_of l);
      if existsb (fun n => dname_eqb n (Some BATCH)) ns then                  (* 64-69 *)
        if forallb is_stream l then
          do '(t, nn) <- torch_cat l dim;
          do m <- cat_batch (map smeta (streams_of l));
          Ok (OStream (mkSt t nn m))
        else Err ValueError
      else if existsb (fun n => dname_eqb n (Some LENGTH)) ns then            (* 73-81 *)
        do _ <- cat_padding_check (removelast l);
        do '(t, nn) <- torch_cat l dim;
        do m <- cat_length (map smeta (streams_of l));
        do k <- mapM (fun t => do d <- norm_dim (ndim t) dim; Ok (size t d)) (plains_of l);
        let s := zsum k in
        Ok (OStream (mkSt t nn (mkMeta (ids m) (sos m) (eos m) (map (fun n => n + s) (lens m)) (chs m))))
      else                                                                    (* 84-90 *)
        let m0 := match l with o :: _ => op_meta o | [] => Err IndexError end in
        do _ <- cat_same_meta m0 (removelast l);
        do m <- m0;
        do '(t, nn) <- torch_cat l dim;
        Ok (OStream (mkSt t nn (clone m)))
  end.

End Named.

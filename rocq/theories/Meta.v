(** Model of class StreamMetadata, dreamstream/tensor.py 97-718.

    Simplifications common to the whole file:
    - object construction is eager here (the LazyProxy of tensor.py 35-94 is modelled in Lazy.v);
      a failing constructor is reported where the object is built;
    - values are immutable (aliasing of tensors is modelled in Lazy.v);
    - dtypes, devices and the 32-bit range of the lengths tensor are not modelled. *)

From Coq Require Import String List ZArith Bool Lia.
From Verif Require Import Py.
Import ListNotations.
Open Scope Z_scope.

(** tensor.py 100-105, 160-164: ids, sos, eos, lengths and optional chunk indices of a batch.
    The cache slots (107-116) are modelled in Lazy.v; _temp_buffer (106) in Conv.v. *)
Record meta : Type := mkMeta {
  ids : list string;
  sos : list bool;
  eos : list bool;
  lens : list Z;
  chs : option (list Z)
}.

(** tensor.py 119-164 (StreamMetadata.__init__) and 727-753 (stream_metadata): the four
    mandatory fields must have the same length; chunk_indices is not checked.  Scalar
    arguments are already wrapped in a list. *)
Definition make_meta (i : list string) (s e : list bool) (l : list Z) (c : option (list Z)) : res meta :=
  if (Nat.eqb (length i) (length l) && Nat.eqb (length l) (length s) && Nat.eqb (length s) (length e))%bool
  then Ok (mkMeta i s e l c)
  else Err ValueError.

(** tensor.py 332-334 (__len__). *)
Definition meta_len (m : meta) : Z := zlen (ids m).

(** tensor.py 215-239: min_length, max_length. *)
Definition min_length (m : meta) : res Z := zmin (lens m).
Definition max_length (m : meta) : res Z := zmax (lens m).

(** tensor.py 259-297: summary flags. *)
Definition any_starting (m : meta) : bool := any_true (sos m).
Definition any_ending (m : meta) : bool := any_true (eos m).
Definition all_starting (m : meta) : bool := all_true (sos m).
Definition all_ending (m : meta) : bool := all_true (eos m).
Definition any_starting_or_ending (m : meta) : bool := any_starting m || any_ending m.
Definition all_starting_and_ending (m : meta) : bool := all_starting m && all_ending m.

(** tensor.py 310-319 (__deepcopy__), 712-714 (clone): same values (isolation: Lazy.v). *)
Definition clone (m : meta) : meta := m.

(** tensor.py 321-330 (__eq__): `A and B and C and D and (both None) or self._chunk_indices.equal(other.lengths)`;
    `None.equal` raises AttributeError. *)
Definition meta_eq (a b : meta) : res bool :=
  if list_eqb String.eqb (ids a) (ids b)
     && list_eqb Bool.eqb (sos a) (sos b)
     && list_eqb Bool.eqb (eos a) (eos b)
     && list_eqb Z.eqb (lens a) (lens b)
     && match chs a, chs b with None, None => true | _, _ => false end
  then Ok true
  else match chs a with
       | None => Err AttributeError
       | Some c => Ok (list_eqb Z.eqb c (lens b))
       end.

(** Index along the batch dimension, tensor.py 404-440. *)
Inductive bidx : Type :=
| BNone                      (* None *)
| BInt (i : Z)               (* int *)
| BSlice (s : pslice)        (* slice *)
| BInts (l : list Z)         (* List[int] or 1-D integer tensor *)
| BTuple (l : list Z)        (* Tuple[int, ...] *)
| BMask (m : list bool)      (* 1-D BoolTensor *)
| BBools (m : list bool)     (* Python list of bool *)
| BScalar (i : Z)            (* 0-d integer tensor *)
| BNd.                       (* tensor with more than one dimension *)

(** t[list of int / list of bool] etc. on one optional field (tensor.py 420, 428, 439). *)
Definition opt_field {A B} (f : list A -> res (list B)) (o : option (list A)) : res (option (list B)) :=
  match o with None => Ok None | Some c => do c' <- f c; Ok (Some c') end.

(** tensor.py 416: [id for i, id in enumerate(self.ids) if indices[i]] -- IndexError when the
    mask is shorter than the list; a longer mask is accepted here. *)
Fixpoint ids_by_mask (l : list string) (m : list bool) : res (list string) :=
  match l, m with
  | [], _ => Ok []
  | _ :: _, [] => Err IndexError
  | a :: l', b :: m' => do r <- ids_by_mask l' m'; Ok (if b then a :: r else r)
  end.

Definition b2z (b : bool) : Z := if b then 1 else 0.

(** tensor.py 404-440 (index_batch). *)
Definition index_batch (m : meta) (ix : bidx) : res meta :=
  match ix with
  | BNone => Ok (clone m)                                                   (* 409-410 *)
  | BNd => Err IndexError                                                   (* 412-413 *)
  | BMask b =>                                                              (* 415-421 *)
      do i <- ids_by_mask (ids m) b;
      do s <- tensor_mask (sos m) b;
      do e <- tensor_mask (eos m) b;
      do l <- tensor_mask (lens m) b;
      do c <- opt_field (fun c => tensor_mask c b) (chs m);
      make_meta i s e l c
  | BInt k =>                                                               (* 423-429 *)
      do i <- py_getitem (ids m) k;
      do s <- py_gather (sos m) [k];
      do e <- py_gather (eos m) [k];
      do l <- py_gather (lens m) [k];
      do c <- opt_field (fun c => py_gather c [k]) (chs m);
      make_meta [i] s e l c
  | BSlice sl =>                                                            (* 431-432, 436-440 *)
      do i <- list_slice (ids m) sl;
      do s <- tensor_slice (sos m) sl;
      do e <- tensor_slice (eos m) sl;
      do l <- tensor_slice (lens m) sl;
      do c <- opt_field (fun c => tensor_slice c sl) (chs m);
      make_meta i s e l c
  | BInts ks =>                                                             (* 433-440 *)
      do i <- py_gather (ids m) ks;
      do s <- py_gather (sos m) ks;
      do e <- py_gather (eos m) ks;
      do l <- py_gather (lens m) ks;
      do c <- opt_field (fun c => py_gather c ks) (chs m);
      make_meta i s e l c
  | BTuple ks =>
      (* 434: the tuple is iterated for the ids; 436: sos[(i, j, ...)] indexes several dimensions:
         too many indices for >= 2; a 0-d tensor for one, whose len() raises TypeError at 139;
         the empty tuple selects everything *)
      do i <- py_gather (ids m) ks;
      match ks with
      | [] => make_meta i (sos m) (eos m) (lens m) (chs m)
      | [_] => Err TypeError
      | _ => Err IndexError
      end
  | BBools b =>
      (* 434: the bools are used as integers for the ids; 436-439: torch reads the list as a mask *)
      do i <- py_gather (ids m) (map b2z b);
      do s <- tensor_mask (sos m) b;
      do e <- tensor_mask (eos m) b;
      do l <- tensor_mask (lens m) b;
      do c <- opt_field (fun c => tensor_mask c b) (chs m);
      make_meta i s e l c
  | BScalar _ => Err TypeError                                              (* 434: iteration over a 0-d tensor *)
  end.

(** Index along the length dimension, tensor.py 442-460.  Python lists of bool are not modelled. *)
Inductive lidx : Type :=
| LNone
| LInt (i : Z)
| LSlice (s : pslice)
| LInts (l : list Z)         (* List[int], Tuple[int, ...] or 1-D integer tensor *)
| LMask (m : list bool)      (* 1-D BoolTensor *)
| LNd                        (* tensor with more than one dimension *)
| LScalar.                   (* 0-d tensor or any other object *)

(** utils/numba.py 60-69 (update_eos_from_integer). *)
Definition update_eos_from_integer (e : list bool) (l : list Z) (i : Z) : list bool :=
  map (fun p => fst p && (snd p <=? i + 1)) (zip e l).

(** utils/numba.py 72-74 (update_eos_from_slice). *)
Definition update_eos_from_slice (e : list bool) (l : list Z) (start stop : Z) : list bool :=
  map (fun p => fst p && (start <? snd p) && (snd p <=? stop)) (zip e l).

(** utils/numba.py 48-57 (update_lengths_from_list_of_indices). *)
Definition update_lengths_from_list_of_indices (l : list Z) (ks : list Z) : list Z :=
  map (fun n => zsum (map (fun k => if n >? k then 1 else 0) ks)) l.

(** utils/numba.py 37-45 (make_indices_positive_). *)
Definition make_indices_positive (ks : list Z) (maxlen : Z) : list Z :=
  map (fun k => if k <? 0 then maxlen + k else k) ks.

(** utils/numba.py 19-25 (is_sorted_ascending). *)
Fixpoint is_sorted_ascending (l : list Z) : bool :=
  match l with
  | a :: t => match t with
              | b :: _ => negb (b <? a) && is_sorted_ascending t
              | [] => true
              end
  | [] => true
  end.

(** utils/numba.py 28-34 (is_sorted_descending). *)
Fixpoint is_sorted_descending (l : list Z) : bool :=
  match l with
  | a :: t => match t with
              | b :: _ => negb (b >? a) && is_sorted_descending t
              | [] => true
              end
  | [] => true
  end.

(** utils/numba.py 6-16 (minmax): one pass with an elif; reads array[0] of an empty array
    (no bounds check in numba): Undefined. *)
Definition minmax (l : list Z) : res (Z * Z) :=
  match l with
  | [] => Err Undefined
  | a :: t =>
      Ok (fold_left (fun (mm : Z * Z) i =>
            let '(mn, mx) := mm in
            if i >? mx then (mn, i) else if i <? mn then (i, mx) else (mn, mx)) t (a, a))
  end.

(** tensor.py 511, 535, 553: sos.clone() or zeros_like(sos). *)
Definition keep_sos (b : bool) (s : list bool) : list bool :=
  if b then s else map (fun _ => false) s.

(** tensor.py 504-516 (_index_length_int). *)
Definition index_length_int (m : meta) (index : Z) : res meta :=
  do index <- (if index <? 0 then do mx <- max_length m; Ok (mx + index) else Ok index);
  let l := map (fun n => clip (n - index) 0 1) (lens m) in
  let s := keep_sos (index =? 0) (sos m) in
  let e := update_eos_from_integer (eos m) (lens m) index in
  make_meta (ids m) s e l (chs m).

(** tensor.py 518-538 (_index_length_slice). *)
Definition index_length_slice (m : meta) (sl : pslice) : res meta :=
  do mx <- max_length m;
  do '(start, stop, stride) <- slice_indices sl mx;
  if stride <? 0 then Err NotImplementedError
  else
    let stop' := if stride =? 1 then stop else mx - ((mx - 1 - start) mod stride) in
    let l := if stride =? 1
             then map (fun n => clip (n - start) 0 (stop' - start)) (lens m)
             else map (fun n => ceil_div (clip (n - start) 0 (stop' - start)) stride) (lens m) in
    let s := keep_sos ((start =? 0) && (stop' >? 0)) (sos m) in
    let e := update_eos_from_slice (eos m) (lens m) start stop' in
    make_meta (ids m) s e l (chs m).

(** tensor.py 540-557 (_index_length_list). *)
Definition index_length_list (m : meta) (ks : list Z) : res meta :=
  do mx <- max_length m;
  let ks := make_indices_positive ks mx in
  if negb (is_sorted_ascending ks) then Err IndexError
  else
    do '(mn, mxi) <- minmax ks;
    let l := update_lengths_from_list_of_indices (lens m) ks in
    let s := keep_sos (mn =? 0) (sos m) in
    let e := update_eos_from_slice (eos m) (lens m) mn mxi in
    make_meta (ids m) s e l (chs m).

(** mask.nonzero().squeeze(1).tolist(), tensor.py 565. *)
Fixpoint nonzero_from (i : Z) (m : list bool) : list Z :=
  match m with
  | [] => []
  | b :: t => if b then i :: nonzero_from (i + 1) t else nonzero_from (i + 1) t
  end.

(** tensor.py 442-460 (index_length), 559-568 (1-D tensors). *)
Definition index_length (m : meta) (ix : lidx) : res meta :=
  match ix with
  | LNone => Ok (clone m)
  | LInt i => index_length_int m i
  | LSlice s => index_length_slice m s
  | LInts ks => index_length_list m ks
  | LMask b => index_length_list m (nonzero_from 0 b)
  | LNd | LScalar => Err IndexError
  end.

(** tensor.py 378-402 (index) for a pair meta[b, l].  All arms of the match for two-element tuples
    amount to index_batch followed by index_length, with None meaning "not indexed".
    (Python lists of bool in either position are outside this model of index.) *)
Definition index_pair (m : meta) (b : bidx) (l : lidx) : res meta :=
  do m' <- index_batch m b; index_length m' l.

(** deepcopy of the only element or concatenation, tensor.py 580-601 (cat_batch). *)
Definition all_some {A} (l : list (option A)) : option (list A) :=
  fold_right (fun o acc => match o, acc with Some a, Some r => Some (a :: r) | _, _ => None end) (Some []) l.

Definition cat_batch (ms : list meta) : res meta :=
  match ms with
  | [] => Err RuntimeError                          (* 594: torch.cat of an empty list *)
  | [m] => Ok (clone m)                             (* 590-591 *)
  | _ =>
      make_meta (List.concat (map ids ms)) (List.concat (map sos ms)) (List.concat (map eos ms))
                (List.concat (map lens ms))
                (match all_some (map chs ms) with   (* 597-600 *)
                 | Some cs => Some (List.concat cs)
                 | None => None
                 end)
  end.

(** Element-wise sum of tensors; torch raises RuntimeError on different sizes (a size-1 tensor
    broadcasts in torch, which cannot happen here because the ids are equal). tensor.py 628. *)
Definition add_lens (a b : list Z) : list Z := map (fun p => fst p + snd p) (zip a b).

(** tensor.py 617-623: the checks of the loop, for the elements after the first. *)
Fixpoint cat_length_checks (ids0 : list string) (ms : list meta) : bool :=
  match ms with
  | [] => true
  | m :: t =>
      list_eqb String.eqb (ids m) ids0
      && negb (any_starting m)
      && (match t with [] => true | _ => negb (any_ending m) end)
      && cat_length_checks ids0 t
  end.

(** tensor.py 603-637 (cat_length). All failing checks raise ValueError. *)
Definition cat_length (ms : list meta) : res meta :=
  match ms with
  | [] => Err IndexError                            (* 625: metas[0] *)
  | [m] => Ok (clone m)                             (* 613-614 *)
  | m0 :: t =>
      if negb (any_ending m0) && cat_length_checks (ids m0) t
      then
        let ml := last t m0 in
        let l := fold_left (fun acc m => add_lens acc (lens m)) t (lens m0) in
        match all_some (map chs ms) with            (* 629-636 *)
        | Some _ => make_meta (ids m0) (sos m0) (eos ml) l (chs ml)
        | None =>
            if forallb (fun m => match chs m with None => true | Some _ => false end) ms
            then make_meta (ids m0) (sos m0) (eos ml) l None
            else Err ValueError
        end
      else Err ValueError
  end.

(** int or List[int] argument of split. *)
Inductive ssize : Type :=
| SInt (k : Z)
| SList (l : list Z).

(** torch.Tensor.split(k) for k > 0 on a 1-D tensor: consecutive pieces of k, the last one smaller;
    an empty tensor gives one empty piece. tensor.py 666-671. *)
Fixpoint chunks_of_fuel {A} (fuel : nat) (k : nat) (l : list A) : list (list A) :=
  match fuel with
  | O => []
  | S f => match l with
           | [] => []
           | _ => firstn k l :: chunks_of_fuel f k (skipn k l)
           end
  end.
Definition chunks_of {A} (k : nat) (l : list A) : list (list A) := chunks_of_fuel (length l) k l.

Definition tensor_split_int {A} (k : Z) (l : list A) : res (list (list A)) :=
  if k <? 0 then Err RuntimeError
  else if k =? 0 then (if Nat.eqb (length l) 0 then Ok [l] else Err RuntimeError)
  else Ok (match l with [] => [[]] | _ => chunks_of (Z.to_nat k) l end).

(** torch.Tensor.split(sections): RuntimeError for a negative section or a wrong sum. *)
Fixpoint take_sections {A} (secs : list Z) (l : list A) : list (list A) :=
  match secs with
  | [] => []
  | k :: t => firstn (Z.to_nat k) l :: take_sections t (skipn (Z.to_nat k) l)
  end.
Definition tensor_split_list {A} (secs : list Z) (l : list A) : res (list (list A)) :=
  if forallb (fun k => 0 <=? k) secs && (zsum secs =? zlen l)
  then Ok (take_sections secs l)
  else Err RuntimeError.

Definition tensor_split {A} (s : ssize) (l : list A) : res (list (list A)) :=
  match s with SInt k => tensor_split_int k l | SList secs => tensor_split_list secs l end.

(** zip of five lists and construction, tensor.py 674-676. *)
Fixpoint build_metas (is : list (list string)) (ss es : list (list bool)) (ls : list (list Z))
  (cs : list (option (list Z))) : list (res meta) :=
  match is, ss, es, ls, cs with
  | i :: is', s :: ss', e :: es', l :: ls', c :: cs' => make_meta i s e l c :: build_metas is' ss' es' ls' cs'
  | _, _, _, _, _ => []
  end.

(** Slices of a Python list [l[i:j]] for nonnegative or negative i, j (tensor.py 661, 664). *)
Definition sub_list {A} (l : list A) (i j : Z) : res (list A) :=
  list_slice l (mkSlice (Some i) (Some j) None).

(** tensor.py 647-676 (split_batch). *)
Definition split_batch (m : meta) (sz : ssize) : res (list meta) :=
  do sids <-
    match sz with
    | SInt k =>
        if k =? 0 then Err ValueError                                       (* range() step 0, 660 *)
        else mapM (fun i => sub_list (ids m) i (i + k)) (py_range 0 (meta_len m) k)
    | SList secs =>
        if zsum secs =? meta_len m
        then let sl := cumsum (0 :: secs) in                                (* 663-664 *)
             mapM (fun p => sub_list (ids m) (fst p) (snd p)) (zip (init sl) (tl sl))
        else Err ValueError                                                 (* 656-657 *)
    end;
  do ss <- tensor_split sz (sos m);
  do es <- tensor_split sz (eos m);
  do ls <- tensor_split sz (lens m);
  do cs <- match chs m with
           | Some c => do x <- tensor_split sz c; Ok (map Some x)
           | None => Ok (map (fun _ => None) sids)
           end;
  seqM (build_metas sids ss es ls cs).

(** tensor.py 700-706 (unbind_batch). *)
Definition unbind_batch (m : meta) : res (list meta) := split_batch m (SInt 1).

(** tensor.py 678-698 (split_length). np.arange with step 0 raises ZeroDivisionError. *)
Definition split_bounds (sz : ssize) (mx : Z) : res (list (Z * Z)) :=
  match sz with
  | SInt k =>
      if k =? 0 then Err ZeroDivisionError
      else let st := py_range 0 mx k in
           Ok (map (fun i => (i, Z.min (i + k) mx)) st)
  | SList secs =>
      if zsum secs <? mx then Err ValueError
      else let en := cumsum secs in Ok (zip (0 :: init en) en)
  end.

Definition split_length (m : meta) (sz : ssize) : res (list meta) :=
  do mx <- max_length m;
  do bs <- split_bounds sz mx;
  mapM (fun p => index_length m (LSlice (mkSlice (Some (fst p)) (Some (snd p)) None))) bs.

(** tensor.py 708-710 (drop_empty). *)
Definition drop_empty (m : meta) : res meta := index_batch m (BMask (map (fun n => n >? 0) (lens m))).

(** tensor.py 462-502 (index_batch_and_length), meta[mask] for a 2-D BoolTensor with at least one column
    (a mask without columns makes cumsum[:, -1] raise IndexError). [mask] is a list of rows. *)
Definition count_true (l : list bool) : Z := zsum (map b2z l).

(** cumsum[r, i] with Python/torch negative index wrap-around. *)
Definition cumsum_at (r : list bool) (i : Z) : res Z := py_getitem (cumsum (map b2z r)) i.

(** Index of the last true entry plus one: size - argmax(fliplr) (tensor.py 496); argmax of an all-false
    row is 0. *)
Definition last_true_stop (r : list bool) : Z :=
  let fix first (i : Z) (l : list bool) :=
      match l with [] => 0 | b :: t => if b then i else first (i + 1) t end in
  zlen r - first 0 (rev r).

Definition index_batch_and_length (m : meta) (mask : list (list bool)) (ncols : nat) : res meta :=
  if Nat.eqb ncols 0 then Err IndexError
  else
    let keep := map (fun r => 0 <? count_true r) mask in
    if negb (any_true keep) then make_meta [] [] [] [] None                  (* 470-471 *)
    else
      do mx <- (if Nat.eqb ncols 1 then max_length m else Ok 0);             (* 474, evaluated only if size(1) == 1 *)
      let bb := (Nat.eqb (length mask) 1) && (1 <? meta_len m) in            (* 473 *)
      let bl := (Nat.eqb ncols 1) && (mx >? 1) in
      if bb && bl then Ok (clone m)                                          (* 475-476 *)
      else
        do '(i, s, e, l, c, mask') <-
          (if negb (all_true keep)
           then do i <- ids_by_mask (ids m) keep;
                do s <- tensor_mask (sos m) keep;
                do e <- tensor_mask (eos m) keep;
                do l <- tensor_mask (lens m) keep;
                do c <- opt_field (fun c => tensor_mask c keep) (chs m);
                Ok (i, s, e, l, c, select_mask mask keep)
           else Ok (ids m, sos m, eos m, lens m, chs m, mask));              (* 478-490 *)
        let col0 := map (fun r => hd false r) mask' in
        (* 492: sos & indices[:, 0]; torch broadcasting of a single row *)
        do s' <- (if Nat.eqb (length col0) (length s) then Ok (map (fun p => fst p && snd p) (zip s col0))
                  else if Nat.eqb (length col0) 1 then Ok (map (fun b => b && hd false col0) s)
                  else if Nat.eqb (length s) 1 then Err ValueError   (* broadcast result rejected by 139-140 *)
                  else Err RuntimeError);
        if bl then make_meta i s' e l c
        else
          (* 495-500; a broadcast batch (single mask row, several rows of meta) is modelled by repeating the row *)
          let maskr := if Nat.eqb (length mask') (length l) then mask'
                       else match mask' with [r] => map (fun _ => r) l | _ => mask' end in
          let start := map (fun r => b2z (hd false r)) maskr in
          let stop := map last_true_stop maskr in
          let e' := map (fun p => let '(b, n, st, sp) := p in b && (st <? n) && (n <=? sp))
                        (zip (zip (zip e l) start) stop) in
          do l' <- mapM (fun p => cumsum_at (fst p) (snd p - 1)) (zip maskr l);
          do c' <- opt_field (fun c => tensor_mask c keep) c;
          make_meta i s' e' l' c'.

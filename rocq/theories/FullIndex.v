(** Model of StreamTensor.__getitem__ for every index expression of ints, slices, None, any number of Ellipsis, lists of
    ints, and integer or boolean tensors of any rank (dreamstream/overrides.py 259-572).  [Named.getitem] is the same
    function for expressions with at most one Ellipsis and at most one list or 1-D tensor (theorem C58_restricts).

    Simplifications: Python lists of bool, nested tuples and lists that stand for tuples are not modelled.  torch versions
    differ in where they apply what follows a boolean tensor with two or more dimensions; an expression in which anything
    but a full slice, an Ellipsis, a list or a tensor follows one is reported as [Undefined]. *)

From Coq Require Import String List ZArith Bool Lia.
From Verif Require Import Py Meta Named Gather.
Import ListNotations.
Open Scope Z_scope.

(** One item (overrides.py 259-260): those of [Named.item], or a tensor of any rank. *)
Inductive xitem : Type :=
| Plain (i : item)
| XMask (m : @tensor bool)      (* BoolTensor *)
| XInts (m : @tensor Z).        (* integer tensor *)

Inductive xindex : Type :=
| XSingle (i : xitem)
| XTuple (l : list xitem).

Definition x_none (i : xitem) : bool := match i with Plain INone => true | _ => false end.
Definition x_ell (i : xitem) : bool := match i with Plain IEll => true | _ => false end.
Definition x_adv (i : xitem) : bool := match i with Plain i => is_adv i | _ => true end.
Definition x_full (i : xitem) : bool := match i with Plain i => is_full_slice i | _ => false end.
Definition x_slice : xitem := Plain full_slice.

(* ---- torch *)

(** Dimensions an item consumes (torch's count_specified_dimensions). *)
Definition consumes (i : xitem) : nat :=
  match i with
  | Plain INone | Plain IEll => O
  | XMask m => ndim m
  | _ => 1%nat
  end.
Definition x_specified (l : list xitem) : nat := list_sum (map consumes l).

(** Positions of the true elements, last dimension fastest (torch nonzero). *)
Definition true_positions (m : @tensor bool) : list (list Z) := filter (at_ m) (all_positions (shp m)).

Definition entries_wrap (m : @tensor Z) (n : Z) : bool :=
  forallb (fun p => (- n <=? at_ m p) && (at_ m p <? n)) (all_positions (shp m)).
Definition wrap (n i : Z) : Z := if i <? 0 then i + n else i.

(** One item applied to dimension [d] of the partly indexed tensor, and the next dimension; [gap] is the number of
    dimensions every Ellipsis stands for.  With several Ellipsis [d] can lie beyond the tensor (IndexError). *)
Definition in_place {V} (t : @tensor V) (d gap : nat) (i : xitem) : res (@tensor V * nat) :=
  match i with
  | Plain INone => if Nat.ltb (ndim t) d then Err IndexError else Ok (t_unsqueeze t d, S d)
  | Plain IEll => Ok (t, (d + gap)%nat)
  | Plain j =>
      do t' <- torch_apply t d gap [j];
      Ok (t', match j with IInt _ | IScalar _ => d | _ => S d end)
  | XMask m =>
      let k := ndim m in
      if negb (list_eqb Z.eqb (shp m) (firstn k (skipn d (shp t)))) then Err IndexError
      else
        let ps := true_positions m in
        Ok (mkTn (firstn d (shp t) ++ zlen ps :: skipn (d + k) (shp t))
                 (fun ix => at_ t (firstn d ix ++ nth (Z.to_nat (nth d ix 0)) ps [] ++ skipn (S d) ix)), S d)
  | XInts m =>
      let k := ndim m in
      if Nat.leb (ndim t) d then Err IndexError
      else if negb (entries_wrap m (size t d)) then Err IndexError
      else Ok (mkTn (firstn d (shp t) ++ shp m ++ skipn (S d) (shp t))
                    (fun ix => at_ t (firstn d ix ++ wrap (size t d) (at_ m (firstn k (skipn d ix))) :: skipn (d + k) ix)),
               (d + k)%nat)
  end.

(** torch's applySlicing with at most one list or tensor, which is applied in place. *)
Fixpoint x_apply {V} (t : @tensor V) (d gap : nat) (l : list xitem) : res (@tensor V) :=
  match l with
  | [] => Ok t
  | i :: r => do '(t', d') <- in_place t d gap i; x_apply t' d' gap r
  end.

(** Two or more lists or tensors are set aside and applied together at the end. *)
Fixpoint x_basic {V} (t : @tensor V) (d gap : nat) (l : list xitem) : res (@tensor V * list (nat * xitem)) :=
  match l with
  | [] => Ok (t, [])
  | i :: r =>
      if x_adv i
      then do '(t', a) <- x_basic t (d + consumes i) gap r; Ok (t', (d, i) :: a)
      else do '(t', d') <- in_place t d gap i; x_basic t' d' gap r
  end.

(** An index tensor per dimension; a boolean tensor stands for the coordinates of its true elements. *)
Definition vector (l : list Z) : @tensor Z := mkTn [zlen l] (fun p => nth (Z.to_nat (nth 0 p 0)) l 0).
Definition expand {V} (t : @tensor V) (p : nat * xitem) : res (list (nat * @tensor Z)) :=
  let '(d, i) := p in
  match i with
  | Plain (IList l) | Plain (ITen l) => Ok [(d, vector l)]
  | Plain (IMask b) => if zlen b =? size t d then Ok [(d, vector (nonzero_from 0 b))] else Err IndexError
  | Plain _ => Err Undefined
  | XMask m =>
      if list_eqb Z.eqb (shp m) (firstn (ndim m) (skipn d (shp t)))
      then Ok (map (fun j => ((d + j)%nat, vector (map (fun p => nth j p 0) (true_positions m)))) (seq 0 (ndim m)))
      else Err IndexError
  | XInts m => Ok [(d, m)]
  end.

(** Sizes of the broadcast index tensors ("shape mismatch": IndexError). *)
Definition lpad (r : nat) (s : list Z) : list Z := repeat 1 (r - List.length s) ++ s.
Fixpoint bcast_all (r : nat) (l : list (nat * @tensor Z)) : res (list Z) :=
  match l with
  | [] => Ok (repeat 1 r)
  | (_, m) :: l' =>
      do s <- bcast_all r l';
      match bcast_sizes (lpad r (shp m)) s with Ok s' => Ok s' | Err _ => Err IndexError end
  end.
Definition max_rank (l : list (nat * @tensor Z)) : nat := fold_right (fun p acc => Nat.max (ndim (snd p)) acc) O l.

(** The element of [m] at position [p] of the broadcast sizes [r] long. *)
Definition bcast_at (r : nat) (m : @tensor Z) (p : list Z) : Z := at_ m (skipn (r - ndim m) (bcast_ix (lpad r (shp m)) p)).

(** A position of the tensor: the given coordinates, the others from [rest] in order. *)
Fixpoint fill (n d : nat) (given : list (nat * Z)) (rest : list Z) : list Z :=
  match n with
  | O => []
  | S n' =>
      match find (fun p => Nat.eqb (fst p) d) given with
      | Some p => snd p :: fill n' (S d) given rest
      | None => hd 0 rest :: fill n' (S d) given (tl rest)
      end
  end.

Definition others {A} (ds : list nat) (l : list A) : list A :=
  map snd (filter (fun p => negb (nat_mem (fst p) ds)) (combine (seq 0 (List.length l)) l)).

(** torch's index with several index tensors: their dimensions come first, or in place of the indexed dimensions if those
    are next to each other. *)
Definition x_together {V} (t : @tensor V) (l : list (nat * xitem)) : res (@tensor V) :=
  do es <- mapM (expand t) l;
  let a := List.concat es in
  let r := max_rank a in
  do s <- bcast_all r a;
  let ds := map fst a in
  if negb (forallb (fun p => Nat.ltb (fst p) (ndim t) && entries_wrap (snd p) (size t (fst p))) a) then Err IndexError
  else
    let d0 := hd O ds in
    let at0 := if list_eqb Nat.eqb ds (seq d0 (List.length ds)) then d0 else O in
    let left := others ds (shp t) in
    Ok (mkTn (firstn at0 left ++ s ++ skipn at0 left)
             (fun ix =>
                let p := firstn r (skipn at0 ix) in
                at_ t (fill (ndim t) O
                            (map (fun e => (fst e, wrap (size t (fst e)) (bcast_at r (snd e) p))) a)
                            (firstn at0 ix ++ skipn (at0 + r) ix)))).

(** Items after a boolean tensor of two or more dimensions other than full slices, Ellipsis, lists and tensors. *)
Fixpoint mask_then_basic (l : list xitem) : bool :=
  match l with
  | [] => false
  | XMask m :: r => (negb (Nat.eqb (ndim m) 1) && existsb (fun i => negb (x_full i || x_ell i || x_adv i)) r) || mask_then_basic r
  | _ :: r => mask_then_basic r
  end.

(** A boolean tensor without dimensions is not modelled; an integer tensor without dimensions is [IScalar]. *)
Definition rank_0 (i : xitem) : bool :=
  match i with XMask m => Nat.eqb (ndim m) 0 | XInts m => Nat.eqb (ndim m) 0 | Plain _ => false end.

Definition x_torch_getitem {V} (t : @tensor V) (ix : xindex) : res (@tensor V) :=
  let l := match ix with XSingle i => [i] | XTuple l => l end in
  if mask_then_basic l || existsb rank_0 l then Err Undefined
  else if Nat.ltb (ndim t) (x_specified l) then Err IndexError
  else
    let gap := (ndim t - x_specified l)%nat in
    if Nat.ltb 1 (List.length (filter x_adv l))
    then do '(t', a) <- x_basic t 0 gap l; x_together t' a
    else x_apply t 0 gap l.

(* ---- overrides.py *)

(** overrides.py 272-274 (number_of_indexed_dimensions): items that are not None, Ellipsis included. *)
Definition x_indexed (l : list xitem) : nat := List.length (filter (fun i => negb (x_none i)) l).

(** [i for i, index in enumerate(new_indices) if index is Ellipsis], overrides.py 292. *)
Definition ell_positions (l : list xitem) : list nat :=
  map fst (filter (fun p => x_ell (snd p)) (combine (seq 0 (List.length l)) l)).

(** overrides.py 293-295: the positions are those of the original list, the last pair is treated first. *)
Definition collapse (l : list xitem) (e : list nat) : list xitem :=
  fold_right (fun i acc => if Nat.eqb (S (nth i e O)) (nth (S i) e O) then remove_nth (nth (S i) e O) acc else acc)
             l (seq 0 (List.length e - 1)).

(** new_indices[p] = slice(None), overrides.py 310-311. *)
Definition set_slice (p : nat) (l : list xitem) : res (list xitem) :=
  if Nat.ltb p (List.length l) then Ok (list_set l p x_slice) else Err IndexError.
Fixpoint set_slices (ps : list nat) (l : list xitem) : res (list xitem) :=
  match ps with
  | [] => Ok l
  | p :: r => do l' <- set_slice p l; set_slices r l'
  end.

(** overrides.py 316-319: the first Ellipsis becomes the missing slices. *)
Definition replace_first (l : list xitem) (nd : nat) : list xitem :=
  match ell_positions l with
  | [] => l
  | k :: _ =>
      let missing := Z.of_nat nd - Z.of_nat (x_indexed l) + 1 in
      firstn k l ++ repeat x_slice (Z.to_nat missing) ++ skipn (S k) l
  end.

(** overrides.py 277-321 (replace_ellipsis) on a tuple. *)
Definition x_replace (l : list xitem) (nd : nat) : res (list xitem) :=
  let e := ell_positions l in
  if Nat.ltb 1 (List.length e)
  then
    let l' := collapse l e in
    let n := List.length (ell_positions l') in
    if Nat.ltb 1 n
    then if Nat.eqb (x_indexed l') nd
         then set_slices (firstn n e) l'                                     (* 309-313 *)
         else Err IndexError                                                 (* 302-307 *)
    else Ok (replace_first l' nd)
  else Ok (replace_first l nd).

(** overrides.py 383-431 with recursive_dim = d: the affected dimensions and the names that remain. *)
Definition x_describe (nms : list dname) (d : nat) (i : xitem) : res (list nat * list dname) :=
  match i with
  | Plain j => describe_item nms d j
  | XMask m =>
      if Nat.eqb (ndim m) 1 then do n <- name_at nms d; Ok ([d], [n])
      else do j <- join_dim_names (firstn (ndim m) (skipn d nms));            (* 413 *)
           Ok (seq d (ndim m), [Some j])
  | XInts m =>
      do n <- name_at nms d;                                                 (* 419-421 *)
      Ok ([d], repeat None (ndim m - 1) ++ [n])
  end.

(** overrides.py 442-445. *)
Fixpoint x_describe_all (nms : list dname) (d : nat) (l : list xitem) : res (list (list nat) * list dname) :=
  match l with
  | [] => Ok ([], [])
  | i :: r =>
      do '(a, n) <- x_describe nms d i;
      do '(a', n') <- x_describe_all nms (S d) r;
      Ok (a :: a', n ++ n')
  end.

(** overrides.py 383-431 without recursion. *)
Definition x_describe_single (nms : list dname) (i : xitem) : res (list nat * list dname) :=
  match i with
  | Plain INone => Ok ([], None :: nms)
  | Plain IEll => Ok ([], nms)
  | Plain (IInt _) => Ok ([O], tl nms)
  | Plain j => Ok (if is_full_slice j then [] else [O], nms)
  | XMask m =>
      if Nat.eqb (ndim m) 1 then Ok ([O], nms)
      else do j <- join_dim_names (firstn (ndim m) nms);
           Ok (seq 0 (ndim m), Some j :: skipn (ndim m) nms)
  | XInts m => Ok ([O], repeat None (ndim m - 1) ++ nms)
  end.

(** `indices[-1].ndim - 1` if the last item is a BoolTensor, overrides.py 450-451. *)
Definition extra_dims (i : xitem) : Z := match i with XMask m => Z.of_nat (ndim m) - 1 | _ => 0 end.

(** overrides.py 343-459: (items without Ellipsis, affected dimensions per item, names, multidimensional). *)
Definition x_determine (nms : list dname) (ix : xindex) : res (list xitem * list (list nat) * list dname * bool) :=
  match ix with
  | XSingle i => do '(a, n) <- x_describe_single nms i; Ok ([i], [a], n, false)
  | XTuple l =>
      do l' <- x_replace l (List.length nms);
      do '(aff, new_names) <- x_describe_all nms O l';
      match rev l' with
      | [] => Err IndexError                                                 (* 450: indices[-1] *)
      | last :: _ =>
          let missing := Z.of_nat (List.length nms) - Z.of_nat (x_indexed l') - extra_dims last in
          Ok (l', aff, new_names ++ skipn (List.length nms - Z.to_nat missing) nms, true)
      end
  end.

(** overrides.py 462-470 (any_along_dims): `any` over the listed dimensions (`sum(dims) > 0` for two or more). *)
Definition any_dim (m : @tensor bool) (d : nat) : @tensor bool :=
  mkTn (remove_nth d (shp m)) (fun ix => existsb (fun p => at_ m (insert_nth d p ix)) (dim_positions (size m d))).
Definition any_along_dims (m : @tensor bool) (ds : list nat) : @tensor bool := fold_right (fun d acc => any_dim acc d) m ds.

(** The elements of a tensor of one dimension. *)
Definition entries {A} (m : @tensor A) : list A := map (fun i => at_ m [i]) (dim_positions (size m 0)).

(** An index item handed to StreamMetadata (tensor.py 404-460). *)
Definition x_bidx (i : xitem) : bidx :=
  match i with
  | Plain j => to_bidx j
  | XMask m => if Nat.eqb (ndim m) 1 then BMask (entries m) else BNd
  | XInts m => if Nat.eqb (ndim m) 1 then BInts (entries m) else BNd
  end.
Definition x_lidx (i : xitem) : lidx :=
  match i with
  | Plain j => to_lidx j
  | XMask m => if Nat.eqb (ndim m) 1 then LMask (entries m) else LNd
  | XInts m => if Nat.eqb (ndim m) 1 then LInts (entries m) else LNd
  end.

(** overrides.py 263-269 with 536-540: (location, affected dimensions, mask) of the boolean tensors with more than one
    dimension. *)
Fixpoint mask_locations (loc : nat) (aff : list (list nat)) (l : list xitem) : list (nat * list nat * @tensor bool) :=
  match aff, l with
  | ds :: aff', XMask m :: l' =>
      if Nat.ltb 1 (ndim m) then (loc, ds, m) :: mask_locations (S loc) aff' l' else mask_locations (S loc) aff' l'
  | _ :: aff', _ :: l' => mask_locations (S loc) aff' l'
  | _, _ => []
  end.

(** overrides.py 546-547, 551-552: reduction to dimension [keep]. *)
Definition reduce_to (keep loc : nat) (ds : list nat) (m : @tensor bool) : list bool :=
  entries (any_along_dims m (map (fun d => (d - loc)%nat) (filter (fun d => negb (Nat.eqb d keep)) ds))).

(** overrides.py 537-561: the batch and length masks found; None for the fallback. *)
Fixpoint mask_indices (bd ld : nat) (locs : list (nat * list nat * @tensor bool)) (b l : option (list bool))
  : option (option (list bool) * option (list bool)) :=
  match locs with
  | [] => Some (b, l)
  | (loc, ds, m) :: r =>
      match nat_mem bd ds, nat_mem ld ds with
      | true, false => mask_indices bd ld r (Some (reduce_to bd loc ds m)) l
      | false, true => mask_indices bd ld r b (Some (reduce_to ld loc ds m))
      | true, true => None
      | false, false => mask_indices bd ld r b l
      end
  end.

Section FullIndex.
Context {V : Type}.

(** overrides.py 476-572 (__getitem__). *)
Definition x_getitem (x : @stensor V) (ix : xindex) : res (@operand V) :=
  do t' <- x_torch_getitem (tn x) ix;                                          (* 511 *)
  do '(items, aff, new_names, multi) <- x_determine (names x) ix;              (* 513 *)
  do bd <- names_index (Some BATCH) (names x);                                 (* 522-523 *)
  do ld <- names_index (Some LENGTH) (names x);
  let ba := nat_mem bd (List.concat aff) in
  let la := nat_mem ld (List.concat aff) in
  if negb (ba || la)
  then do nn <- refine_names (ndim t') new_names; Ok (OStream (mkSt t' nn (clone (smeta x))))   (* 527-529 *)
  else
    match mask_indices bd ld (mask_locations O aff items) None None with
    | None => Ok (OPlain t')                                                   (* 554-561 *)
    | Some (bm, lm) =>
        let item_of d := if multi then nth d items (Plain INone) else nth O items (Plain INone) in
        let b := match bm with
                 | Some v => BMask v
                 | None => if ba then x_bidx (item_of bd) else BNone           (* 568-570 *)
                 end in
        let l := match lm with
                 | Some v => LMask v
                 | None => if la then x_lidx (item_of ld) else LNone           (* 564-566 *)
                 end in
        do nn <- refine_names (ndim t') new_names;                             (* 572 *)
        do m' <- index_pair (smeta x) b l;
        Ok (OStream (mkSt t' nn m'))
    end.

End FullIndex.

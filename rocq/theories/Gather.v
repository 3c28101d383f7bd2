(** Model of the overrides of gather, take_along_dim, take, scatter_add and scatter_reduce
    (dreamstream/overrides.py 592-697, 736-807) and of decouple_recursive (tensor.py 976-994).

    Simplifications: dtypes, `out=` and `sparse_grad=` (except that the in-place forms pass the input as `out`),
    memory sharing.  The torch primitives [torch_gather], [torch_take_along_dim], [torch_take] and [torch_scatter] are
    models of library code and part of the trusted base. *)

From Coq Require Import String List ZArith Bool Lia.
From Verif Require Import Py Meta Named.
Import ListNotations.
Open Scope Z_scope.

(** An integer tensor given as index; [true] if it is itself a StreamTensor. *)
Record ixarg : Type := mkIx { ix_tn : @tensor Z; ix_stream : bool }.

(** tensor.numel() == 0. *)
Definition is_empty (s : list Z) : bool := existsb (Z.eqb 0) s.

(** The positions of a tensor of sizes [s], last dimension fastest. *)
Fixpoint all_positions (s : list Z) : list (list Z) :=
  match s with
  | [] => [[]]
  | n :: r => flat_map (fun i => map (cons i) (all_positions r)) (dim_positions n)
  end.

(** a <= b in every dimension except [d]. *)
Fixpoint fits_but (d : nat) (a b : list Z) {struct a} : bool :=
  match a, b with
  | [], [] => true
  | x :: a', y :: b' =>
      match d with
      | O => list_eqb Z.leb a' b'
      | S d' => (x <=? y) && fits_but d' a' b'
      end
  | _, _ => false
  end.

(** All entries of the index lie in 0 .. n-1. *)
Definition entries_ok (ix : @tensor Z) (n : Z) : bool :=
  forallb (fun p => (0 <=? at_ ix p) && (at_ ix p <? n)) (all_positions (shp ix)).

(** Sizes after broadcasting: RuntimeError unless equal or one of them 1. *)
Definition bcast_size (a b : Z) : res Z :=
  if a =? b then Ok a else if a =? 1 then Ok b else if b =? 1 then Ok a else Err RuntimeError.
Fixpoint bcast_sizes (a b : list Z) : res (list Z) :=
  match a, b with
  | [], [] => Ok []
  | x :: a', y :: b' => do n <- bcast_size x y; do r <- bcast_sizes a' b'; Ok (n :: r)
  | _, _ => Err RuntimeError
  end.

(** broadcast_to(sizes): dimensions of size one are read at position 0. *)
Definition bcast_ix (s ix : list Z) : list Z := map (fun p => if fst p =? 1 then 0 else snd p) (zip s ix).

Section Gather.
Context {V : Type}.

(** torch.gather(t, d, index).  An index without elements is not checked at all. *)
Definition torch_gather (t : @tensor V) (d : nat) (ix : @tensor Z) : res (@tensor V) :=
  if is_empty (shp ix) then Ok (mkTn (shp ix) (at_ t))
  else if negb (fits_but d (shp ix) (shp t)) then Err RuntimeError
  else if negb (entries_ok ix (size t d)) then Err RuntimeError
  else Ok (mkTn (shp ix) (fun p => at_ t (list_set p d (at_ ix p)))).

Definition t_bcast {A} (t : @tensor A) (s : list Z) : @tensor A :=
  mkTn s (fun p => at_ t (bcast_ix (shp t) p)).

(** torch.take_along_dim(t, index, d): both are broadcast to each other apart from dimension [d], then gather. *)
Definition torch_take_along_dim (t : @tensor V) (d : nat) (ix : @tensor Z) : res (@tensor V) :=
  if negb (Nat.eqb (ndim t) (ndim ix)) then Err RuntimeError
  else
    do si <- bcast_sizes (list_set (shp t) d (size ix d)) (shp ix);
    do st <- bcast_sizes (list_set (shp ix) d (size t d)) (shp t);
    torch_gather (t_bcast t st) d (t_bcast ix si).

(** index.size(d). *)
Definition size_at {A} (t : @tensor A) (d : nat) : res Z :=
  match nth_error (shp t) d with Some n => Ok n | None => Err IndexError end.

(** overrides.py 636-655: None if the sizes agree, slice(None, size) if not; None without such a dimension. *)
Definition cut_index (nms : list dname) (n : string) (t : @tensor V) (ix : @tensor Z) : res (option Z) :=
  match names_index (Some n) nms with
  | Err _ => Ok None
  | Ok d => do m <- size_at ix d; Ok (if m =? size t d then None else Some m)
  end.

Definition slice_upto (o : option Z) : pslice := mkSlice None o None.

(** overrides.py 618-661 (_gather_and_take_along_dim); [f] is the torch function.  With a StreamTensor as index the
    call `function(tensor, ...)` in 626 is dispatched to the override again, this time with a plain tensor as input,
    which has no attribute `decouple`. *)
Definition gather_with (f : @tensor V -> nat -> @tensor Z -> res (@tensor V)) (x : @stensor V) (dim : Z) (ix : ixarg) : res (@stensor V) :=
  if ix_stream ix then Err AttributeError                                         (* 626 *)
  else
    do k <- norm_dim (ndim (tn x)) dim;
    do t' <- f (tn x) k (ix_tn ix);
    do n <- py_getitem (names x) dim;                                             (* 629 *)
    if dname_eqb n (Some LENGTH) || dname_eqb n (Some BATCH) then Err IndexError  (* 634 *)
    else
      do b <- cut_index (names x) BATCH (tn x) (ix_tn ix);                        (* 636-645 *)
      do l <- cut_index (names x) LENGTH (tn x) (ix_tn ix);                       (* 647-655 *)
      do nn <- rename (ndim t') (names x);                                        (* 657 *)
      match b, l with
      | None, None => Ok (mkSt t' nn (clone (smeta x)))                           (* 658-659 *)
      | _, _ =>
          do m' <- index_pair (smeta x)
                     (match b with None => BNone | Some _ => BSlice (slice_upto b) end)
                     (match l with None => LNone | Some _ => LSlice (slice_upto l) end);
          Ok (mkSt t' nn m')
      end.

(** overrides.py 592-601, 604-615. *)
Definition gather : @stensor V -> Z -> ixarg -> res (@stensor V) := gather_with torch_gather.
Definition take_along_dim : @stensor V -> Z -> ixarg -> res (@stensor V) := gather_with torch_take_along_dim.

(* ---- take *)

(** torch.take(t, idx): idx counts the elements row-major, negative ones from the end. *)
Definition torch_take (t : @tensor V) (l : list Z) : res (@tensor V) :=
  let n := zprod (shp t) in
  if forallb (fun i => (- n <=? i) && (i <? n)) l
  then Ok (mkTn [zlen l] (fun p =>
         match p with
         | [j] => let i := nth (Z.to_nat j) l 0 in at_ t (unravel (shp t) (if i <? 0 then i + n else i))
         | _ => at_ t p
         end))
  else Err IndexError.

(** np.unravel_index(indices, shape): ValueError outside 0 .. n-1; one array of coordinates per dimension. *)
Definition np_unravel (s : list Z) (l : list Z) : res (list (list Z)) :=
  if forallb (fun i => (0 <=? i) && (i <? zprod s)) l
  then Ok (map (fun d => map (fun i => nth d (unravel s i) 0) l) (seq 0 (List.length s)))
  else Err ValueError.

(** list(dict.fromkeys(sub)): without duplicates, in the order of first appearance. *)
Fixpoint fromkeys (seen l : list Z) : list Z :=
  match l with
  | [] => []
  | a :: r => if existsb (Z.eqb a) seen then fromkeys seen r else a :: fromkeys (a :: seen) r
  end.

(** del l[i] for a nonnegative position. *)
Definition py_del {A} (l : list A) (i : nat) : res (list A) :=
  if Nat.ltb i (List.length l) then Ok (remove_nth i l) else Err IndexError.

(** overrides.py 676-682 and 684-690 for one of the two dimensions: the index (outer None: the variable stays unbound;
    inner None: all positions) and the names left. *)
Definition take_dim (nms : list dname) (n : string) (t : @tensor V) (uniq : list (list Z)) (left : list dname)
  : res (option (option (list Z)) * list dname) :=
  match names_index (Some n) nms with
  | Err _ => Ok (None, left)
  | Ok d =>
      let u := nth d uniq [] in
      do left' <- (if Nat.eqb (List.length u) 1 then py_del left d else Ok left);
      Ok (Some (if zlen u =? size t d then None else Some u), left')
  end.

(** overrides.py 664-697 (take) for a one-dimensional index tensor (others end in a TypeError in 671). *)
Definition take (x : @stensor V) (l : list Z) : res (@stensor V) :=
  do t' <- torch_take (tn x) l;
  do subs <- np_unravel (shp (tn x)) l;
  let uniq := map (fromkeys []) subs in
  do '(b, nn) <- take_dim (names x) BATCH (tn x) uniq (names x);
  do '(l', nn) <- take_dim (names x) LENGTH (tn x) uniq nn;
  do j <- join_dim_names nn;
  if String.eqb j EmptyString then Err RuntimeError                              (* 692: not a valid name *)
  else
    match b, l' with
    | Some b, Some l' =>
        match b, l' with
        | None, None => Ok (mkSt t' [Some j] (clone (smeta x)))
        | _, _ =>
            do m' <- index_pair (smeta x)
                       (match b with None => BNone | Some u => BInts u end)
                       (match l' with None => LNone | Some u => LInts u end);
            Ok (mkSt t' [Some j] m')
        end
    | _, _ => Err UnboundLocalError                                              (* 694 or 697 *)
    end.

(* ---- scatter *)

(** A tensor argument of scatter_add / scatter_reduce, or a Number for `src`. *)
Inductive src_arg : Type :=
| SrcTensor (o : @operand V)
| SrcNumber.

(** a <= b in every dimension. *)
Definition fits (a b : list Z) : bool := list_eqb Z.leb a b.

(** torch.scatter_add / scatter_reduce(t, d, index, src): every element of src within the sizes of index goes to the
    position given by index in dimension [d]; [red] combines the old value with the elements arriving there (sum,
    prod, mean, ..., with or without the old value). An index without elements changes nothing. *)
Definition torch_scatter (red : V -> list V -> V) (t : @tensor V) (d : nat) (ix : @tensor Z) (src : @tensor V) : res (@tensor V) :=
  if is_empty (shp ix) then Ok (mkTn (shp t) (fun p => red (at_ t p) []))
  else if negb (fits_but d (shp ix) (shp t)) || negb (fits (shp ix) (shp src)) then Err RuntimeError
  else if negb (entries_ok ix (size t d)) then Err RuntimeError
  else Ok (mkTn (shp t) (fun p =>
         red (at_ t p)
             (map (at_ src) (filter (fun q => list_eqb Z.eqb (list_set q d (at_ ix q)) p) (all_positions (shp ix)))))).

(** Names and metadata collected by decouple_recursive((input, index, src, out), metas, names), tensor.py 976-994. *)
Definition collected (l : list (option (list dname * meta))) : list (list dname * meta) :=
  flat_map (fun o => match o with Some p => [p] | None => [] end) l.
Definition op_info (o : @operand V) : option (list dname * meta) :=
  match o with OStream x => Some (names x, smeta x) | OPlain _ => None end.

(** all(meta == metas[0] for meta in metas), overrides.py 756, 792: from left to right, up to the first False. *)
Fixpoint all_equal (m0 : meta) (ms : list meta) : res bool :=
  match ms with
  | [] => Ok true
  | m :: r => do b <- meta_eq m m0; if b then all_equal m0 r else Ok false
  end.

(** overrides.py 736-763 (scatter_add), 771-800 (scatter_reduce); [inplace]: called through scatter_add_ /
    scatter_reduce_ (766-768, 803-807), which pass the input as `out` (scatter_reduce_ takes `reduce` before `src`,
    torch `src` before `reduce`; here the arguments are given by name).  [ixi]: names and metadata of index, if it is a
    StreamTensor. *)
Definition scatter (red : V -> list V -> V) (inplace : bool) (input : @operand V) (dim : Z)
    (ix : @tensor Z) (ixi : option (list dname * meta)) (src : src_arg) : res (@operand V) :=
  match src with
  | SrcNumber => Err TypeError                                                   (* 748, 786 *)
  | SrcTensor src =>
      let infos := collected [op_info input; ixi; op_info src; if inplace then op_info input else None] in
      do k <- norm_dim (ndim (op_tensor input)) dim;
      do t' <- torch_scatter red (op_tensor input) k ix (op_tensor src);
      match infos with
      | [] => Err IndexError                                                     (* names[0]: no StreamTensor at all *)
      | (nms, m0) :: _ =>
          do bd <- names_index (Some BATCH) nms;                                 (* 752, 788 *)
          do fall <- (if dim =? Z.of_nat bd then Ok true
                      else do ld <- names_index (Some LENGTH) nms; Ok (dim =? Z.of_nat ld));
          if fall then Ok (OPlain t')
          else
            do same <- all_equal m0 (map snd infos);                             (* 756, 792 *)
            if negb same then Ok (OPlain t')
            else do nn <- rename (ndim t') nms; Ok (OStream (mkSt t' nn (clone m0)))
      end
  end.

End Gather.

(* ---- decouple_recursive *)

(** Values a torch function may be called with. *)
Inductive value (T : Type) : Type :=
| VStream (t : T) (m : meta) (n : list dname)    (* StreamTensor *)
| VTensor (t : T)                                (* torch.Tensor without metadata *)
| VStr (s : string)
| VSeq (is_tuple : bool) (l : list (value T))    (* tuple or list *)
| VMap (l : list (value T * value T))            (* dict *)
| VOther (z : Z).                                (* anything else *)
Arguments VStream {T}. Arguments VTensor {T}. Arguments VStr {T}.
Arguments VSeq {T}. Arguments VMap {T}. Arguments VOther {T}.

(** tensor.py 976-994 with both lists given (metas and names are appended to from left to right; keys of mappings are
    left alone). Subclasses whose constructor does not take a generator (namedtuple, defaultdict, range) are not modelled. *)
Fixpoint decouple_recursive {T} (v : value T) : value T * list (meta * list dname) :=
  match v with
  | VStream t m n => (VTensor t, [(m, n)])
  | VSeq b l =>
      let rs := map decouple_recursive l in
      (VSeq b (map fst rs), List.concat (map snd rs))
  | VMap l =>
      let rs := map (fun p => (fst p, decouple_recursive (snd p))) l in
      (VMap (map (fun p => (fst p, fst (snd p))) rs), List.concat (map (fun p => snd (snd p)) rs))
  | _ => (v, [])
  end.

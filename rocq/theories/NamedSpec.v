(** Vocabulary for the statements about named StreamTensors of any rank.
    Nothing here uses the operations of Named.v, only its types (and op_tensor, the data of an operand). *)

From Coq Require Import String List ZArith Bool Lia.
From Verif Require Import Py Meta MetaSpec Named.
Import ListNotations.
Open Scope Z_scope.

(** No two dimensions carry the same name. *)
Definition names_distinct (l : list dname) : Prop :=
  forall i j s, nth_error l i = Some (Some s) -> nth_error l j = Some (Some s) -> i = j.

(** A position inside a tensor of the given sizes. *)
Definition in_range (s ix : list Z) : Prop := Forall2 (fun n i => 0 <= i < n) s ix.

(** [x] is a tensor with batch dimension [bd] and length dimension [ld] holding the streams [rs] (chunk indices
    present iff [c]) in [T] time steps; rows may be padded. *)
Record stream_ok {V} (x : @stensor V) (bd ld : nat) (c : bool) (rs : list row) (T : Z) : Prop := mkStreamOk {
  so_rank : length (names x) = length (shp (tn x));
  so_distinct : names_distinct (names x);
  so_sizes : Forall (fun n => 0 <= n) (shp (tn x));
  so_bname : nth_error (names x) bd = Some (Some "B"%string);
  so_lname : nth_error (names x) ld = Some (Some "L"%string);
  so_bsize : nth_error (shp (tn x)) bd = Some (zlen rs);
  so_lsize : nth_error (shp (tn x)) ld = Some T;
  so_meta : smeta x = of_rows c rs;
  so_nonneg : nonneg rs;
  so_fit : Forall (fun r => rlen r <= T) rs
}.

(* ---- what an index expression selects (the Python / torch rule) *)

(** What happens to one dimension: untouched, restricted to one position and dropped, or restricted to
    positions. *)
Inductive sel : Type :=
| Full
| Drop (p : Z)
| Keep (ps : list Z).

(** Selection by one item in a dimension of size [n]. *)
Inductive picks (n : Z) : item -> sel -> Prop :=
| P_all : picks n (ISlice (mkSlice None None None)) Full
| P_int i : - n <= i < n -> picks n (IInt i) (Drop (if i <? 0 then i + n else i))
| P_slice a b : (a <> None \/ b <> None) -> picks n (ISlice (mkSlice a b None)) (Keep (slice_positions n a b 1))
| P_step a b k : 0 < k -> picks n (ISlice (mkSlice a b (Some k))) (Keep (slice_positions n a b k))
| P_list l : Forall (fun i => - n <= i < n) l -> picks n (IList l) (Keep (map (fun i => if i <? 0 then i + n else i) l))
| P_ten l : Forall (fun i => - n <= i < n) l -> picks n (ITen l) (Keep (map (fun i => if i <? 0 then i + n else i) l))
| P_mask b : zlen b = n -> picks n (IMask b) (Keep (mask_positions b)).

(** Dimension by dimension. *)
Inductive picks_all : list Z -> list item -> list sel -> Prop :=
| PA_nil : picks_all [] [] []
| PA_cons n i s ns is ss : picks n i s -> picks_all ns is ss -> picks_all (n :: ns) (i :: is) (s :: ss).

Definition all_item : item := ISlice (mkSlice None None None).

(** The item for each of the [nd] dimensions: an Ellipsis stands for as many full slices as are missing, and
    missing trailing items are full slices. A single item is a tuple of one. *)
Inductive spreads (nd : nat) : index -> list item -> Prop :=
| S_plain l : ~ In IEll l -> (length l <= nd)%nat -> l <> [] ->
    spreads nd (Tuple l) (l ++ repeat all_item (nd - length l))
| S_ell l1 l2 : ~ In IEll l1 -> ~ In IEll l2 -> (length l1 + length l2 <= nd)%nat ->
    (l1 ++ l2 <> [] \/ (0 < nd)%nat) ->
    spreads nd (Tuple (l1 ++ IEll :: l2)) (l1 ++ repeat all_item (nd - length l1 - length l2) ++ l2)
| S_one i : i <> IEll -> (1 <= nd)%nat -> spreads nd (Single i) (i :: repeat all_item (nd - 1))
| S_dots : spreads nd (Single IEll) (repeat all_item nd).

(** Items that are lists or index tensors. *)
Definition fancy (i : item) : bool := match i with IList _ | ITen _ | IMask _ => true | _ => false end.
Definition one_fancy (l : list item) : Prop := (length (filter fancy l) <= 1)%nat.

(** Names of the dimensions that remain. *)
Fixpoint kept {A} (ss : list sel) (l : list A) : list A :=
  match ss, l with
  | Drop _ :: ss', _ :: l' => kept ss' l'
  | _ :: ss', a :: l' => a :: kept ss' l'
  | _, _ => []
  end.

(** Sizes of the dimensions that remain. *)
Fixpoint kept_sizes (ss : list sel) (s : list Z) : list Z :=
  match ss, s with
  | Full :: ss', n :: s' => n :: kept_sizes ss' s'
  | Drop _ :: ss', _ :: s' => kept_sizes ss' s'
  | Keep ps :: ss', _ :: s' => zlen ps :: kept_sizes ss' s'
  | _, _ => []
  end.

(** Where position [ix] of the result comes from. *)
Fixpoint source (ss : list sel) (ix : list Z) : list Z :=
  match ss with
  | [] => []
  | Full :: ss' => match ix with i :: ix' => i :: source ss' ix' | [] => [] end
  | Drop p :: ss' => p :: source ss' ix
  | Keep ps :: ss' => match ix with i :: ix' => nth (Z.to_nat i) ps 0 :: source ss' ix' | [] => [] end
  end.

(** [t'] is the part of [t] selected by [ss]. *)
Definition selected {V} (t : @tensor V) (ss : list sel) (t' : @tensor V) : Prop :=
  shp t' = kept_sizes ss (shp t) /\
  (forall ix, in_range (shp t') ix -> at_ t' ix = at_ t (source ss ix)).

(** Streams that remain after selecting [s] in the batch dimension. *)
Definition sel_rows (s : sel) (rs : list row) : list row :=
  match s with
  | Full => rs
  | Drop p => at_positions rs [p]
  | Keep ps => at_positions rs ps
  end.

(** [r'] is the stream [r] reduced to the time steps [qs]: same id and chunk index, as many steps as real
    steps were selected; a start only if step 0 was selected (and then always, if there was data); an end only if [r] was
    one and its last real step or a later one was selected, and always if its last real step was; when the steps are given
    by a list, tensor or mask ([fy]) the latter holds only if a step after the last real one was selected, too. *)
Definition time_row (fy : bool) (qs : list Z) (r r' : row) : Prop :=
  rid r' = rid r /\ rch r' = rch r /\ rlen r' = count_real qs (rlen r) /\
  (rsos r' = true -> rsos r = true /\ In 0 qs) /\
  (0 < rlen r -> rsos r = true -> In 0 qs -> rsos r' = true) /\
  (reos r' = true -> reos r = true /\ exists p, In p qs /\ rlen r - 1 <= p) /\
  (0 < rlen r -> reos r = true -> In (rlen r - 1) qs -> (fy = true -> exists p, In p qs /\ rlen r <= p) -> reos r' = true).

(** Streams after selecting [s] in the length dimension. *)
Definition sel_time (fy : bool) (s : sel) (rs rs' : list row) : Prop :=
  match s with
  | Full => rs' = rs
  | Drop p => Forall2 (time_row fy [p]) rs rs'
  | Keep qs => Forall2 (time_row fy qs) rs rs'
  end.

(** The length index is one whose metadata rule is sound when the longest remaining stream has [mx] steps and the
    tensor [T]: no negative bounds unless mx = T, start before stop, no stop with a step, lists in order and
    not empty. *)
Definition nonneg_end (o : option Z) : Prop := match o with None => True | Some v => 0 <= v end.
Definition sound_time (T mx : Z) (i : item) : Prop :=
  match i with
  | IInt k => 0 <= k \/ mx = T
  | ISlice (mkSlice a b st) =>
      ((nonneg_end a /\ nonneg_end b) \/ mx = T) /\
      match st with
      | None | Some 1 => slice_lo T a <= slice_hi T b
      | Some _ => b = None
      end
  | IList l | ITen l => l <> [] /\ (Forall (fun k => 0 <= k) l \/ mx = T) /\ ascending (map (wrap_neg T) l)
  | IMask b => In true b
  | _ => False
  end.

(** [y] is the selection [ss] of [x]: every remaining dimension keeps its name, the data are the selected ones,
    and the metadata describe the selected streams reduced to the selected time steps ([fy]: given by a list). *)
Definition in_step {V} (x : @stensor V) (bd ld : nat) (c : bool) (rs : list row) (fy : bool) (ss : list sel) (y : @stensor V) : Prop :=
  names y = kept ss (names x) /\ selected (tn x) ss (tn y) /\
  exists rs', smeta y = of_rows c rs' /\ sel_time fy (nth ld ss Full) (sel_rows (nth bd ss Full) rs) rs'.

(** Dimension [k] of [nd] is selected by [s], the others are untouched. *)
Definition dim_sel (nd k : nat) (s : sel) : list sel := repeat Full k ++ s :: repeat Full (nd - k - 1).

(** [d] denotes dimension [k] of [nd]; negative numbers count from the end. *)
Definition denotes (nd : nat) (d : Z) (k : nat) : Prop :=
  (k < nd)%nat /\ (d = Z.of_nat k \/ d = Z.of_nat k - Z.of_nat nd).

(** The positions a, a+1, ..., a+n-1. *)
Definition interval (a n : Z) : list Z := map (fun i => a + i) (positions n).

(** Streams that hold data, and their batch positions. *)
Definition nonempty (r : row) : bool := 0 <? rlen r.
Definition nonempty_at (rs : list row) : list Z := mask_positions (map nonempty rs).

(** [t'] is [t] with a new dimension of size one before dimension [k]. *)
Definition new_dim {V} (k : nat) (t t' : @tensor V) : Prop :=
  shp t' = firstn k (shp t) ++ 1 :: skipn k (shp t) /\
  (forall ia ic, length ia = k -> at_ t' (ia ++ 0 :: ic) = at_ t (ia ++ ic)).

(** What squeeze() does to a dimension of size [n]. *)
Definition squeezes (n : Z) : sel := if n =? 1 then Drop 0 else Full.

(** Row-major position of [ix] in a block of sizes [s]. *)
Fixpoint block_size (s : list Z) : Z := match s with [] => 1 | n :: r => n * block_size r end.
Fixpoint block_pos (s ix : list Z) : Z :=
  match s, ix with
  | _ :: s', i :: ix' => i * block_size s' + block_pos s' ix'
  | _, _ => 0
  end.

(** Positions a..b of a list. *)
Definition between {A} (a b : nat) (l : list A) : list A := firstn (S b - a) (skipn a l).

(** [t'] is [t] with the dimensions a..b merged into one, in row-major order. *)
Definition flattened {V} (a b : nat) (t t' : @tensor V) : Prop :=
  shp t' = firstn a (shp t) ++ block_size (between a b (shp t)) :: skipn (S b) (shp t) /\
  (forall ia im ic, length ia = a -> in_range (between a b (shp t)) im ->
     at_ t' (ia ++ block_pos (between a b (shp t)) im :: ic) = at_ t (ia ++ im ++ ic)).

(** [t'] is [t] with its dimensions in the order [ds]. *)
Definition permuted {V} (ds : list nat) (t t' : @tensor V) : Prop :=
  shp t' = map (fun d => nth d (shp t) 0) ds /\
  (forall ix jx, length ix = length ds -> length jx = length ds ->
     (forall k, (k < length ds)%nat -> nth (nth k ds O) jx 0 = nth k ix 0) -> at_ t' ix = at_ t jx).

(** The order of dimensions after exchanging [a] and [b]. *)
Definition exchange (nd a b : nat) : list nat :=
  map (fun d => if Nat.eqb d a then b else if Nat.eqb d b then a else d) (seq 0 nd).

(** Split sizes that fit a dimension of size [n], and the positions of the j-th piece. *)
Definition split_fits (n : Z) (sz : ssize) : Prop :=
  match sz with SInt k => 1 <= k | SList l => Forall (fun k => 0 <= k) l /\ zsum l = n end.
Definition piece_positions (sz : ssize) (n : Z) (j : nat) : list Z :=
  interval (piece_lo sz j) (Z.min (piece_hi sz j) n - piece_lo sz j).

(** [t0] and [t] have the same sizes apart from dimension [d]. *)
Definition same_frame {V} (d : nat) (t0 t : @tensor V) : Prop :=
  exists pre n0 n post, shp t0 = pre ++ n0 :: post /\ shp t = pre ++ n :: post /\ length pre = d /\ 0 <= n0 /\ 0 <= n.

(** [t'] holds the tensors [t0 :: ts] one after the other along dimension [d]. *)
Definition concatenated {V} (d : nat) (t0 : @tensor V) (ts : list (@tensor V)) (t' : @tensor V) : Prop :=
  shp t' = firstn d (shp t0) ++ zsum (map (fun t => nth d (shp t) 0) (t0 :: ts)) :: skipn (S d) (shp t0) /\
  (forall j t ia i ic, nth_error (t0 :: ts) j = Some t -> length ia = d -> 0 <= i < nth d (shp t) 0 ->
     at_ t' (ia ++ (zsum (map (fun u => nth d (shp u) 0) (firstn j (t0 :: ts))) + i) :: ic) = at_ t (ia ++ i :: ic)).

(** Stream operands of a concatenation: same names everywhere, sizes differ at most in dimension [d]. *)
Definition alike {V} (d : nat) (x0 : @stensor V) (xs : list (@stensor V)) : Prop :=
  length (names x0) = length (shp (tn x0)) /\ 0 <= nth d (shp (tn x0)) 0 /\
  Forall (fun x => names x = names x0 /\ same_frame d (tn x0) (tn x)) xs.

(** Real steps of operand [o] in row [b]: a plain tensor consists of real data. *)
Definition op_len {V} (ld b : nat) (o : @operand V) : Z :=
  match o with OStream x => nth b (lens (smeta x)) 0 | OPlain t => nth ld (shp t) 0 end.

(** Row [b] of operand [o] is not padded. *)
Definition op_full {V} (ld b : nat) (o : @operand V) : Prop :=
  match o with OStream x => nth b (lens (smeta x)) 0 = nth ld (shp (tn x)) 0 | OPlain _ => True end.

(** Operands that fit together along the length dimension [ld]: at least one stream, all streams named [nms]. *)
Definition along_length {V} (ld : nat) (nms : list dname) (ops : list (@operand V)) : Prop :=
  (forall x, In (OStream x) ops -> names x = nms /\ exists bd c rs T, stream_ok x bd ld c rs T /\ rs <> []) /\
  (exists x, In (OStream x) ops) /\ nth_error nms ld = Some (Some "L"%string) /\
  (forall o o', In o ops -> In o' ops -> same_frame ld (op_tensor o) (op_tensor o')).

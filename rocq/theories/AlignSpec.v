(** Vocabulary for statements about whole computations on named StreamTensors: what it means that data and
    metadata agree, and which operations a computation may consist of.
    Uses the types of Named.v; the operations of Named.v, Gather.v, FullIndex.v and Dispatch.v occur only in [op],
    [torch_returns] and [built], to say what was called. *)

From Coq Require Import String List ZArith Bool Lia Permutation.
From Verif Require Import Py Meta MetaSpec Named NamedSpec Gather GatherSpec Dispatch FullIndex FullIndexSpec.
Import ListNotations.
Open Scope Z_scope.

Section Align.
Context {V : Type}.
(** Of every value it is known whether it is data or padding, and for data to which stream it belongs and at which time
    it was recorded.  The functions are arbitrary: the code under study never looks at values. *)
Context (real : V -> bool) (owner : V -> string) (time : V -> Z).

(** Positions that differ at most in dimension [ld]. *)
Definition same_but_time (ld : nat) (ix jx : list Z) : Prop := forall d, d <> ld -> nth d ix 0 = nth d jx 0.

(** The metadata tell the truth about the data: in row [r] of the batch exactly the first rlen r steps are data, they
    belong to stream rid r, and they are in the order in which they were recorded. *)
Record aligned_at (x : @stensor V) (bd ld : nat) (c : bool) (rs : list row) (T : Z) : Prop := mkAligned {
  al_ok : stream_ok x bd ld c rs T;
  al_real : forall ix r, in_range (shp (tn x)) ix -> nth_error rs (Z.to_nat (nth bd ix 0)) = Some r ->
    real (at_ (tn x) ix) = (nth ld ix 0 <? rlen r);
  al_owner : forall ix r, in_range (shp (tn x)) ix -> nth_error rs (Z.to_nat (nth bd ix 0)) = Some r ->
    real (at_ (tn x) ix) = true -> owner (at_ (tn x) ix) = rid r;
  al_time : forall ix jx, in_range (shp (tn x)) ix -> in_range (shp (tn x)) jx -> same_but_time ld ix jx ->
    nth ld ix 0 <= nth ld jx 0 -> real (at_ (tn x) ix) = true -> real (at_ (tn x) jx) = true ->
    time (at_ (tn x) ix) <= time (at_ (tn x) jx)
}.
Definition aligned (x : @stensor V) : Prop := exists bd ld c rs T, aligned_at x bd ld c rs T.

(** The dimension stays. *)
Definition stays (s : sel) : Prop := forall p, s <> Drop p.

(** The entries of an index tensor do not depend on time: a gather follows the same place through all steps. *)
Definition steady (ld : nat) (ix : @tensor Z) : Prop :=
  forall p q, in_range (shp ix) p -> in_range (shp ix) q -> same_but_time ld p q -> at_ ix p = at_ ix q.

(** One operation that keeps the batch and the length dimension. The conditions on the arguments are those of C14-C22, C54,
    C58 and C59. *)
Inductive op (x y : @stensor V) : Prop :=
| Op_getitem bd ld c rs T ix items ss :
    stream_ok x bd ld c rs T -> spreads (length (shp (tn x))) ix items -> one_fancy items ->
    picks_all (shp (tn x)) items ss -> stays (nth bd ss Full) -> stays (nth ld ss Full) ->
    nth ld ss Full = Full \/
    (exists mx, is_max_len (sel_rows (nth bd ss Full) rs) mx /\ sound_time T mx (nth ld items INone)) ->
    getitem x ix = Ok y -> op x y
| Op_select bd ld c rs T d k i :
    stream_ok x bd ld c rs T -> denotes (length (shp (tn x))) d k -> k <> bd -> k <> ld ->
    select x d (IInt i) = Ok y -> op x y
| Op_narrow bd ld c rs T d k start len :
    stream_ok x bd ld c rs T -> denotes (length (shp (tn x))) d k -> 0 <= start -> (k = ld -> rs <> []) ->
    narrow x d start len = Ok y -> op x y
| Op_index_select bd ld c rs T k l :
    stream_ok x bd ld c rs T -> (k < length (shp (tn x)))%nat -> (k = ld -> rs <> [] /\ l <> [] /\ ascending l) ->
    index_select x (Z.of_nat k) (IxVec l) = Ok y -> op x y
| Op_drop_empty : lens (smeta x) <> [] -> st_drop_empty x = Ok (Some y) -> op x y
| Op_unsqueeze k : unsqueeze x (Z.of_nat k) = Ok y -> op x y
| Op_squeeze d k :
    denotes (length (shp (tn x))) d k -> nth k (names x) None <> Some "B"%string -> nth k (names x) None <> Some "L"%string ->
    squeeze x (Some d) = Ok y -> op x y
| Op_flatten s e : flatten x s e = Ok (inr y) -> op x y
| Op_permute dims : permute x dims = Ok y -> op x y
| Op_T : transpose_all x = Ok y -> op x y
| Op_transpose d0 d1 : method_transpose x d0 d1 = Ok y -> op x y
| Op_split bd ld c rs T d k n sz ys j :
    stream_ok x bd ld c rs T -> denotes (length (shp (tn x))) d k -> nth_error (shp (tn x)) k = Some n -> split_fits n sz ->
    (k = ld -> rs <> []) -> split x sz d = Ok ys -> nth_error ys j = Some y -> op x y
| Op_unbind bd ld c rs T d k ys j :
    stream_ok x bd ld c rs T -> denotes (length (shp (tn x))) d k -> k <> bd -> k <> ld ->
    unbind x d = Ok ys -> nth_error ys j = Some y -> op x y
| Op_gather bd ld c rs T d ix :
    stream_ok x bd ld c rs T -> (forall k, denotes (length (shp (tn x))) d k -> ix_fits k (shp (tn x)) ix) -> steady ld ix ->
    gather x d (mkIx ix false) = Ok y -> op x y
| Op_take_along_dim bd ld c rs T d ix :
    stream_ok x bd ld c rs T -> (forall k, denotes (length (shp (tn x))) d k -> ix_broadcasts k (shp (tn x)) ix) -> steady ld ix ->
    nth_error (shp ix) bd = Some (zlen rs) -> nth_error (shp ix) ld = Some T ->
    take_along_dim x d (mkIx ix false) = Ok y -> op x y
| Op_squeeze_all bd ld c rs T :
    stream_ok x bd ld c rs T -> zlen rs <> 1 -> T <> 1 ->
    (forall i, nth_error (names x) i = Some None -> nth_error (shp (tn x)) i <> Some 1) \/
    (forall i, nth_error (names x) i = Some None -> nth_error (shp (tn x)) i = Some 1) ->
    squeeze x None = Ok y -> op x y
| Op_nones bd ld c rs T l items ss j :
    stream_ok x bd ld c rs T -> spreads (length (shp (tn x))) (Tuple l) items -> one_fancy items ->
    picks_all (shp (tn x)) items ss -> stays (nth bd ss Full) -> stays (nth ld ss Full) ->
    nth ld ss Full = Full \/
    (exists mx, is_max_len (sel_rows (nth bd ss Full) rs) mx /\ sound_time T mx (nth ld items INone)) ->
    getitem x (Tuple (l ++ repeat INone j)) = Ok y -> op x y
| Op_only_nones j : getitem x (Tuple (repeat INone (S j))) = Ok y -> op x y
| Op_ints bd ld c rs T pre post ss1 ss2 ss m nm1 nm nm2 nm3 n1 n n2 n3 :
    stream_ok x bd ld c rs T ->
    shp (tn x) = n1 ++ n :: n2 ++ n3 -> names x = nm1 ++ nm :: nm2 ++ nm3 -> length nm1 = length n1 -> length nm2 = length n2 ->
    picks_all n1 pre ss1 -> picks_all n2 post ss2 -> existsb fancy pre = false -> existsb fancy post = false ->
    (1 <= length (shp m))%nat -> (forall p, in_range (shp m) p -> - n <= at_ m p < n) -> Forall (fun k => 0 <= k) (shp m) ->
    bd <> length pre -> ld <> length pre -> ss = ss1 ++ Full :: ss2 ++ repeat Full (length n3) ->
    stays (nth bd ss Full) -> stays (nth ld ss Full) ->
    (nth ld ss Full = Full \/
      exists mx, is_max_len (sel_rows (nth bd ss Full) rs) mx /\ sound_time T mx (nth ld (pre ++ all_item :: post) all_item)) ->
    x_getitem x (XTuple (map Plain pre ++ XInts m :: map Plain post)) = Ok (OStream y) -> op x y
| Op_mask bd ld c rs T pre ss1 ss m ns nm1 nm3 n1 n3 :
    stream_ok x bd ld c rs T ->
    shp (tn x) = n1 ++ shp m ++ n3 -> names x = nm1 ++ map Some ns ++ nm3 -> length nm1 = length n1 -> length ns = length (shp m) ->
    (2 <= length (shp m))%nat -> picks_all n1 pre ss1 -> existsb fancy pre = false ->
    ~ (length pre <= bd < length pre + length (shp m))%nat -> ~ (length pre <= ld < length pre + length (shp m))%nat ->
    names_distinct (kept ss1 nm1 ++ Some (String.concat "_" ns) :: nm3) -> ss = ss1 ++ repeat Full (length (shp m ++ n3)) ->
    stays (nth bd ss Full) -> stays (nth ld ss Full) ->
    (nth ld ss Full = Full \/
      exists mx, is_max_len (sel_rows (nth bd ss Full) rs) mx /\ sound_time T mx (nth ld pre INone)) ->
    x_getitem x (XTuple (map Plain pre ++ [XMask m])) = Ok (OStream y) -> op x y.

(** Pieces in the order in which they were recorded: at the same place, no step of an earlier piece is later than a step
    of a later one. *)
Definition in_order (ld : nat) (xs : list (@stensor V)) : Prop :=
  forall j j' x x' ix jx, nth_error xs j = Some x -> nth_error xs j' = Some x' -> (j < j')%nat ->
    in_range (shp (tn x)) ix -> in_range (shp (tn x')) jx -> same_but_time ld ix jx ->
    real (at_ (tn x) ix) = true -> real (at_ (tn x') jx) = true -> time (at_ (tn x) ix) <= time (at_ (tn x') jx).

(* ---- element-wise functions *)

(** The StreamTensors among positional and keyword arguments. *)
Definition streams (args : list (@arg V)) (kw : @kwargs V) : list (@stensor V) :=
  flat_map (fun a => match a with AStream x => [x] | _ => [] end) (args ++ map snd kw).

(** Where an operand of shape [s] is read for position [ix] of the result (torch's broadcasting, equal ranks). *)
Definition pulled (s : list Z) (ix : list Z) : list Z := map (fun p => if fst p =? 1 then 0 else snd p) (combine s ix).

(** [t] is computed from the operands [ss] position by position; the value may also depend on the position (that is, on operands
    that are no streams), but sizes come from the streams. *)
Record elementwise (g : list Z -> list V -> V) (ss : list (@stensor V)) (t : @tensor V) : Prop := mkElementwise {
  el_some : ss <> [];
  el_rank : forall x, In x ss -> length (shp (tn x)) = length (shp t);
  el_size : forall k n, nth_error (shp t) k = Some n ->
    (forall x, In x ss -> nth_error (shp (tn x)) k = Some n \/ nth_error (shp (tn x)) k = Some 1) /\
    exists x, In x ss /\ nth_error (shp (tn x)) k = Some n;
  el_at : forall ix, in_range (shp t) ix -> at_ t ix = g ix (map (fun x => at_ (tn x) (pulled (shp (tn x)) ix)) ss)
}.

(** What such a function makes of values: data from data of one stream, no data from padding, and never an earlier time from
    later ones. *)
Record lawful (g : list Z -> list V -> V) : Prop := mkLawful {
  lf_real : forall ix vs, real (g ix vs) = forallb real vs;
  lf_owner : forall ix v vs, forallb real (v :: vs) = true -> Forall (fun w => owner w = owner v) vs -> owner (g ix (v :: vs)) = owner v;
  lf_time : forall ix jx vs ws, forallb real vs = true -> forallb real ws = true -> Forall2 (fun v w => time v <= time w) vs ws ->
    time (g ix vs) <= time (g jx ws)
}.

(** The names that torch gives the result of an element-wise function: those of the operands, which do not contradict each other. *)
Definition unified (ss : list (@stensor V)) (n : list dname) : Prop :=
  names_distinct n /\ forall x, In x ss -> length (names x) = length n /\ forall k s, nth_error (names x) k = Some (Some s) -> nth_error n k = Some (Some s).

(** The same streams with the same lengths. *)
Definition same_streams (ss : list (@stensor V)) : Prop :=
  forall x x', In x ss -> In x' ss -> ids (smeta x) = ids (smeta x') /\ lens (smeta x) = lens (smeta x').

(** What torch itself returns for the call: [t] with names [n]; [self]: as the changed first argument. *)
Definition torch_returns (f : string) (impl : @raw V) (args : list (@arg V)) (kw : @kwargs V) (self : bool) (t : @tensor V) (n : list dname) : Prop :=
  let r := if self then RSelf t n else RTen t n in
  match handler_of f with
  | HDefault => impl (map raw_of args) (on_values raw_of kw) = Ok r
  | HValid => impl (map raw_of args) [] = Ok r /\ kw = [] /\ self = true
  | HRecouple => impl (map decoupled args) (on_values decoupled kw) = Ok r
  | HInplace => impl (map decoupled args) (on_values decoupled kw) = Ok r /\ self = true
  | _ => False
  end.

(** Everything that can be computed from the tensors [given] by any number of operations, concatenations (along the
    batch, along the length dimension if the pieces are in order, and along another dimension if the metadata are equal) and
    element-wise functions (of the default and recoupling rules without chunk indices, or of streams known to be the same). *)
Inductive built (given : @stensor V -> Prop) : @stensor V -> Prop :=
| Bu_given x : given x -> built given x
| Bu_op x y : built given x -> op x y -> built given y
| Bu_batch x0 x1 xs dim bd y :
    (forall x, In x (x0 :: x1 :: xs) -> built given x) ->
    alike bd x0 (x1 :: xs) -> denotes (length (shp (tn x0))) dim bd -> nth_error (names x0) bd = Some (Some "B"%string) ->
    cat (map OStream (x0 :: x1 :: xs)) dim = Ok (OStream y) -> built given y
| Bu_length x0 x1 xs dim ld y :
    (forall x, In x (x0 :: x1 :: xs) -> built given x) ->
    alike ld x0 (x1 :: xs) -> denotes (length (shp (tn x0))) dim ld -> nth_error (names x0) ld = Some (Some "L"%string) ->
    lens (smeta x0) <> [] -> in_order ld (x0 :: x1 :: xs) ->
    cat (map OStream (x0 :: x1 :: xs)) dim = Ok (OStream y) -> built given y
| Bu_other x0 x1 xs dim d nm y :
    (forall x, In x (x0 :: x1 :: xs) -> built given x) ->
    alike d x0 (x1 :: xs) -> denotes (length (shp (tn x0))) dim d -> nth_error (names x0) d = Some nm ->
    nm <> Some "B"%string -> nm <> Some "L"%string -> (forall x, In x (x1 :: xs) -> smeta x = smeta x0) ->
    cat (map OStream (x0 :: x1 :: xs)) dim = Ok (OStream y) -> built given y
| Bu_elementwise custom f impl args kw self t n g y :
    (forall x, In x (streams args kw) -> built given x) ->
    (handler_of f = HDefault \/ handler_of f = HRecouple) /\ (forall x, In x (streams args kw) -> chs (smeta x) = None) \/
    same_streams (streams args kw) ->
    torch_returns f impl args kw self t n ->
    (handler_of f = HDefault \/ handler_of f = HValid -> unified (streams args kw) n) ->
    (handler_of f = HInplace -> forall x r, args = AStream x :: r -> unified (streams args kw) (names x)) ->
    elementwise g (streams args kw) t -> lawful g ->
    torch_function custom f impl args kw = Ok (DStream y) -> built given y.

End Align.

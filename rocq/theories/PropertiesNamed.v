(** Theorems of record about StreamTensors of any rank with named dimensions (dreamstream/overrides.py,
    dreamstream/tensor.py 720-1056): C14-C23.

    [stream_ok x bd ld c rs T]: x has batch dimension bd and length dimension ld, holds the streams rs in T time steps.
    [in_step x bd ld c rs fy ss y]: y is the selection ss of x in names, data and metadata; fy: time steps given by a list.  See NamedSpec.v. *)

From Coq Require Import String List ZArith Bool Lia Permutation.
From Verif Require Import Py Meta MetaSpec Named NamedSpec NamedProofs NamedSelProofs NamedIndexProofs NamedMetaProofs
  NamedGetProofs NamedOpsProofs NamedShapeProofs NamedSplitProofs NamedCatProofs NamedMoreProofs NamedEdgeProofs.
Import ListNotations.
Open Scope string_scope.
Open Scope list_scope.
Open Scope Z_scope.

(** All positions of a tensor of sizes [s], row-major, and everything there is to see of a StreamTensor. *)
Fixpoint all_ix (s : list Z) : list (list Z) :=
  match s with [] => [[]] | n :: r => flat_map (fun i => map (cons i) (all_ix r)) (positions n) end.
Definition see (y : res (@stensor Z)) : res (list Z * list Z * list dname * meta) :=
  match y with Ok y => Ok (shp (tn y), map (at_ (tn y)) (all_ix (shp (tn y))), names y, smeta y) | Err e => Err e end.

(** Values spell their own position: 123 is at [1; 2; 3]. *)
Definition digits (ix : list Z) : Z := fold_left (fun a i => 10 * a + i) ix 0.
(** Streams a (5 steps) and b (2 steps, ends) with two features, dimensions B, F, L. *)
Definition ex_rows2 : list row := [mkRow "a" true false 5 0; mkRow "b" false true 2 3].
Definition ex_x : @stensor Z := mkSt (mkTn [2; 2; 5] digits) [Some "B"; Some "F"; Some "L"] (of_rows true ex_rows2).
(** The same with dimensions L, B. *)
Definition ex_lb : @stensor Z := mkSt (mkTn [5; 2] digits) [Some "L"; Some "B"] (of_rows true ex_rows2).
Definition sl (a b : option Z) : item := ISlice (mkSlice a b None).

Lemma distinct_by_dup l : names_dup l = false -> names_distinct l.
Proof. apply names_dup_false. Qed.

Example ex_x_ok : stream_ok ex_x 0 2 true ex_rows2 5 /\ stream_ok ex_lb 1 0 true ex_rows2 5.
Proof.
  split; constructor; try reflexivity;
    try (apply distinct_by_dup; vm_compute; reflexivity);
    (repeat constructor; cbn; lia).
Qed.

(* ------------------------------------------------------------------ C14 (StreamTensor) *)

(** Without any empty stream x itself is returned, with only empty streams None, and with two or more non-empty ones
    exactly those. *)
Theorem C14_drop_empty_partial : forall (V : Type) (x : @stensor V) bd ld c rs T, stream_ok x bd ld c rs T -> rs <> [] ->
  (Forall (fun r => 0 < rlen r) rs -> st_drop_empty x = Ok (Some x)) /\
  (Forall (fun r => rlen r = 0) rs -> st_drop_empty x = Ok None) /\
  (~ Forall (fun r => 0 < rlen r) rs -> (2 <= length (filter nonempty rs))%nat ->
     exists y, st_drop_empty x = Ok (Some y) /\
       in_step x bd ld c rs true (dim_sel (length (shp (tn x))) bd (Keep (nonempty_at rs))) y /\
       smeta y = of_rows c (filter nonempty rs)).
Proof. intros V x bd ld c rs T H Hn. destruct (drop_empty_cases x bd ld c rs T H Hn) as (A & B & C & _). auto. Qed.
(** Missing case: exactly one of several streams is left; the call always fails. *)
Theorem C14_one_left_refuted : forall (V : Type) (x : @stensor V) bd ld c rs T, stream_ok x bd ld c rs T ->
  ~ Forall (fun r => 0 < rlen r) rs -> length (filter nonempty rs) = 1%nat -> st_drop_empty x = Err TypeError.
Proof.
  intros V x bd ld c rs T H Hn H1. assert (rs <> []) by (intros ->; discriminate).
  destruct (drop_empty_cases x bd ld c rs T H H0) as (_ & _ & _ & D). auto.
Qed.
Example C14_stream_ex :
  let mk ls := mkSt (mkTn [zlen ls; 3] digits) [Some "B"; Some "L"]
     (of_rows false (map (fun n => mkRow "s" true false n 0) ls)) in
  (match st_drop_empty (mk [3; 0; 2]) with Ok (Some y) => see (Ok y) | Ok None => Err Undefined | Err e => Err e end
     = Ok ([2; 3], [0; 1; 2; 20; 21; 22], [Some "B"; Some "L"], of_rows false [mkRow "s" true false 3 0; mkRow "s" true false 2 0])) /\
  st_drop_empty (mk [0; 0]) = Ok None /\ st_drop_empty (mk [0; 3]) = Err TypeError.
Proof. split; [|split]; vm_compute; reflexivity. Qed.

(* ------------------------------------------------------------------ C15 *)

(** Whenever x[idx] is accepted, what torch selects per dimension is [picks_all], and each dimension that is not dropped
    keeps its own name. *)
Theorem C15_names : forall (V : Type) (x y : @stensor V) bd ld ix items,
  length (names x) = length (shp (tn x)) -> names_distinct (names x) -> Forall (fun n => 0 <= n) (shp (tn x)) ->
  nth_error (names x) bd = Some (Some "B") -> nth_error (names x) ld = Some (Some "L") ->
  spreads (length (shp (tn x))) ix items -> one_fancy items -> Forall plain_item items -> getitem x ix = Ok y ->
  exists ss, picks_all (shp (tn x)) items ss /\ names y = kept ss (names x) /\ selected (tn x) ss (tn y).
Proof. intros V x y bd ld ix items. apply getitem_names. Qed.
Example C15_ex :
  see (getitem ex_x (Tuple [IEll; sl (Some 1) (Some 3)])) =
    Ok ([2; 2; 2], [1; 2; 11; 12; 101; 102; 111; 112], [Some "B"; Some "F"; Some "L"],
        of_rows true [mkRow "a" false false 2 0; mkRow "b" false true 1 3]) /\
  see (getitem ex_x (Tuple [sl None None; IInt (-1); sl None (Some 1)])) =
    Ok ([2; 1], [10; 110], [Some "B"; Some "L"], of_rows true [mkRow "a" true false 1 0; mkRow "b" false false 1 3]) /\
  see (getitem ex_x (Tuple [ITen [1; 0]; IEll; IInt 0])) =
    Ok ([2; 2], [100; 110; 0; 10], [Some "B"; Some "F"], of_rows true [mkRow "b" false false 1 3; mkRow "a" true false 1 0]).
Proof. split; [|split]; vm_compute; reflexivity. Qed.
(** x[()] is an index tuple without any item; torch returns all of x, here it fails. *)
Theorem C15_empty_tuple_refuted : torch_getitem (tn ex_x) (Tuple []) = Ok (tn ex_x) /\ getitem ex_x (Tuple []) = Err IndexError.
Proof. split; vm_compute; reflexivity. Qed.

(* ------------------------------------------------------------------ C16 *)

(** Every index expression whose time index is sound ([sound_time], see NamedSpec.v) or absent is accepted, and the result
    is in step: the streams at the selected batch positions, each with the number of selected real steps. *)
Theorem C16_in_step_partial : forall (V : Type) (x : @stensor V) bd ld c rs T ix items ss, stream_ok x bd ld c rs T ->
  spreads (length (shp (tn x))) ix items -> one_fancy items -> picks_all (shp (tn x)) items ss ->
  nth ld ss Full = Full \/
  (exists mx, is_max_len (sel_rows (nth bd ss Full) rs) mx /\ sound_time T mx (nth ld items INone)) ->
  exists y, getitem x ix = Ok y /\ in_step x bd ld c rs (fancy (nth ld items INone)) ss y.
Proof. intros V x bd ld c rs T ix items ss. apply getitem_in_step. Qed.
(** A selection in time order keeps the real steps in front: the j-th selected step is real in the result iff the step it
    comes from is real. Slices are in time order. *)
Theorem C16_real_steps : forall fy qs r r', time_row fy qs r r' -> ascending qs ->
  forall j q, nth_error qs j = Some q -> (Z.of_nat j < rlen r' <-> q < rlen r).
Proof. intros fy qs r r' (_ & _ & E & _) HA j q Hj. rewrite E. now apply real_prefix. Qed.
Theorem C16_slices_in_order : forall n a b k, ascending (slice_positions n a b k).
Proof. exact ascending_slice. Qed.
(** For slices without a step the flags are exact as well: a start iff step 0 is kept, an end iff the last real step is. *)
Theorem C16_slice_flags : forall (V : Type) (x : @stensor V) bd ld c rs T ix items ss a b mx, stream_ok x bd ld c rs T ->
  spreads (length (shp (tn x))) ix items -> one_fancy items -> picks_all (shp (tn x)) items ss ->
  nth ld items INone = ISlice (mkSlice a b None) -> a <> None \/ b <> None ->
  is_max_len (sel_rows (nth bd ss Full) rs) mx -> (nonneg_end a /\ nonneg_end b) \/ mx = T -> slice_lo T a <= slice_hi T b ->
  exists y, getitem x ix = Ok y /\
    smeta y = of_rows c (map (row_keep (slice_positions mx a b 1)) (sel_rows (nth bd ss Full) rs)).
Proof. intros V x bd ld c rs T ix items ss a b mx. apply getitem_slice_exact. Qed.
(** x.select(d, i) is x[:, ..., i]. *)
Theorem C16_select : forall (V : Type) (x : @stensor V) bd ld c rs T d k n i p, stream_ok x bd ld c rs T ->
  denotes (length (shp (tn x))) d k -> nth_error (shp (tn x)) k = Some n -> picks n (IInt i) (Drop p) ->
  (k = ld -> is_max_len rs T \/ (rs <> [] /\ 0 <= i)) ->
  exists y, select x d (IInt i) = Ok y /\ in_step x bd ld c rs false (dim_sel (length (shp (tn x))) k (Drop p)) y.
Proof. intros V x bd ld c rs T d k n i p. apply select_in_step. Qed.
Example C16_ex :
  see (select ex_x (-1) (IInt 3)) = Ok ([2; 2], [3; 13; 103; 113], [Some "B"; Some "F"],
     of_rows true [mkRow "a" false false 1 0; mkRow "b" false true 0 3]) /\
  see (getitem ex_lb (Tuple [ISlice (mkSlice (Some 1) None (Some 2)); IInt 1])) =
    Ok ([2], [11; 31], [Some "L"], of_rows true [mkRow "b" false true 1 3]) /\
  see (getitem ex_lb (Tuple [ISlice (mkSlice (Some 1) None (Some 2))])) =
    Ok ([2; 2], [10; 11; 30; 31], [Some "L"; Some "B"], of_rows true [mkRow "a" false false 2 0; mkRow "b" false true 1 3]).
Proof. split; [|split]; vm_compute; reflexivity. Qed.
(** x[1:2, :, -1] selects the last of five time steps, which is padding of stream b (two steps), but the metadata
    counts it as one real step: negative time indices count from the longest *selected* stream. *)
Theorem C16_negative_time_refuted :
  see (getitem ex_x (Tuple [sl (Some 1) (Some 2); sl None None; IInt (-1)])) =
    Ok ([1; 2], [104; 114], [Some "B"; Some "F"], of_rows true [mkRow "b" false true 1 3]) /\
  count_real [4] 2 = 0.
Proof. split; vm_compute; reflexivity. Qed.

(* ------------------------------------------------------------------ C17 *)

(** Every start >= 0 (negative dim included); along length the batch must not be empty. *)
Theorem C17_narrow_partial : forall (V : Type) (x : @stensor V) bd ld c rs T d k n start len, stream_ok x bd ld c rs T ->
  denotes (length (shp (tn x))) d k -> nth_error (shp (tn x)) k = Some n ->
  0 <= start -> 0 <= len -> start + len <= n -> (k = ld -> rs <> []) ->
  exists y, narrow x d start len = Ok y /\
    in_step x bd ld c rs false (dim_sel (length (shp (tn x))) k (Keep (interval start len))) y.
Proof. intros V x bd ld c rs T d k n start len. apply narrow_in_step. Qed.
Example C17_ex :
  see (narrow ex_x (-1) 1 2) = Ok ([2; 2; 2], [1; 2; 11; 12; 101; 102; 111; 112], [Some "B"; Some "F"; Some "L"],
    of_rows true [mkRow "a" false false 2 0; mkRow "b" false true 1 3]) /\
  see (narrow ex_x 0 1 1) = Ok ([1; 2; 5], [100; 101; 102; 103; 104; 110; 111; 112; 113; 114], [Some "B"; Some "F"; Some "L"],
    of_rows true [mkRow "b" false true 2 3]).
Proof. split; vm_compute; reflexivity. Qed.
(** What does not lie in the dimension is refused. *)
Theorem C17_narrow_outside : forall (V : Type) (x : @stensor V) d k n start len,
  denotes (length (shp (tn x))) d k -> nth_error (shp (tn x)) k = Some n ->
  (len < 0 -> narrow x d start len = Err RuntimeError) /\
  (0 <= len -> start < - n \/ n < start -> narrow x d start len = Err IndexError) /\
  (0 <= start <= n -> n < start + len -> narrow x d start len = Err RuntimeError) /\
  (- n <= start < 0 -> 0 < start + len -> narrow x d start len = Err RuntimeError).
Proof.
  intros V x d k n start len Hd Hn. unfold narrow. assert (E : norm_dim (ndim (tn x)) d = Ok k) by (apply norm_dim_denotes; exact Hd).
  rewrite E. cbn [bind]. unfold torch_narrow, size. rewrite (nth_error_nth _ _ _ Hn).
  split; [|split; [|split]]; intros.
  - replace (len <? 0) with true by lia. reflexivity.
  - replace (len <? 0) with false by lia. replace ((start <? - n) || (n <? start)) with true by lia. reflexivity.
  - destruct (len <? 0); [reflexivity|]. replace ((start <? - n) || (n <? start)) with false by lia.
    replace (start <? 0) with false by lia. replace (n <? start + len) with true by lia. reflexivity.
  - destruct (len <? 0); [reflexivity|]. replace ((start <? - n) || (n <? start)) with false by lia.
    replace (start <? 0) with true by lia. replace (n <? start + n + len) with true by lia. reflexivity.
Qed.
Example C17_narrow_outside_ex :
  see (narrow ex_x 2 0 (-1)) = Err RuntimeError /\ see (narrow ex_x 2 6 1) = Err IndexError /\ see (narrow ex_x 2 (-6) 1) = Err IndexError /\
  see (narrow ex_x (-1) 3 3) = Err RuntimeError /\ see (narrow ex_x 2 (-2) 3) = Err RuntimeError.
Proof. split; [|split; [|split; [|split]]]; vm_compute; reflexivity. Qed.

(** narrow(2, -1, 1) keeps the last step, narrow(0, -1, 1) the last stream; the metadata say nothing was kept. *)
Theorem C17_negative_start_refuted :
  see (narrow ex_x 2 (-1) 1) = Ok ([2; 2; 1], [4; 14; 104; 114], [Some "B"; Some "F"; Some "L"],
     of_rows true [mkRow "a" false false (-4) 0; mkRow "b" false false (-4) 3]) /\
  see (narrow ex_x 0 (-1) 1) = Ok ([1; 2; 5], [100; 101; 102; 103; 104; 110; 111; 112; 113; 114], [Some "B"; Some "F"; Some "L"],
     of_rows true []).
Proof. split; vm_compute; reflexivity. Qed.

(* ------------------------------------------------------------------ C18 *)

(** Nonnegative dim; along length the indices must be in time order. *)
Theorem C18_index_select_partial : forall (V : Type) (x : @stensor V) bd ld c rs T k n l, stream_ok x bd ld c rs T ->
  nth_error (shp (tn x)) k = Some n -> Forall (fun i => 0 <= i < n) l -> (k = ld -> rs <> [] /\ l <> [] /\ ascending l) ->
  exists y, index_select x (Z.of_nat k) (IxVec l) = Ok y /\
    in_step x bd ld c rs true (dim_sel (length (shp (tn x))) k (Keep l)) y.
Proof. intros V x bd ld c rs T k n l. apply index_select_in_step. Qed.
Example C18_ex :
  see (index_select ex_lb 1 (IxVec [1; 1; 0])) =
    Ok ([5; 3], [1; 1; 0; 11; 11; 10; 21; 21; 20; 31; 31; 30; 41; 41; 40], [Some "L"; Some "B"],
        of_rows true [mkRow "b" false true 2 3; mkRow "b" false true 2 3; mkRow "a" true false 5 0]) /\
  see (index_select ex_lb 0 (IxVec [0; 3])) =
    Ok ([2; 2], [0; 1; 30; 31], [Some "L"; Some "B"], of_rows true [mkRow "a" true false 2 0; mkRow "b" false true 1 3]).
Proof. split; vm_compute; reflexivity. Qed.
(** With a negative dim the metadata are never touched, whatever was selected. *)
Theorem C18_negative_dim_refuted : forall (V : Type) (x y : @stensor V) d v, d < 0 -> index_select x d v = Ok y -> smeta y = smeta x.
Proof. intros V x y d v. apply index_select_negative. Qed.
Example C18_negative_dim_ex :
  see (index_select ex_lb (-1) (IxVec [1])) =
    Ok ([5; 1], [1; 11; 21; 31; 41], [Some "L"; Some "B"], of_rows true ex_rows2) /\ ex_rows2 <> at_positions ex_rows2 [1].
Proof. split; [vm_compute; reflexivity|discriminate]. Qed.

(* ------------------------------------------------------------------ C19 *)

(** unsqueeze with a nonnegative d: the unnamed dimension is where torch puts it. *)
Theorem C19_unsqueeze_partial : forall (V : Type) (x : @stensor V) k,
  length (names x) = length (shp (tn x)) -> names_distinct (names x) -> (k <= length (shp (tn x)))%nat ->
  exists y, unsqueeze x (Z.of_nat k) = Ok y /\ new_dim k (tn x) (tn y) /\ smeta y = smeta x /\
    names y = firstn k (names x) ++ None :: skipn k (names x).
Proof. intros V x k. apply unsqueeze_places. Qed.
(** With a negative d every named dimension before the new one loses its name to it (only d = -rank-1 is right). *)
Theorem C19_unsqueeze_negative_refuted : forall (V : Type) (x : @stensor V) d k n,
  length (names x) = length (shp (tn x)) -> names_distinct (names x) -> denotes (S (length (shp (tn x)))) d k -> d < 0 ->
  (0 < k)%nat -> nth_error (names x) (Nat.pred k) = Some (Some n) ->
  exists y, unsqueeze x d = Ok y /\ new_dim k (tn x) (tn y) /\ names y <> firstn k (names x) ++ None :: skipn k (names x).
Proof. intros V x d k n. apply unsqueeze_misplaces. Qed.
(** squeeze(d) for every valid d. *)
Theorem C19_squeeze_dim : forall (V : Type) (x : @stensor V) d k,
  length (names x) = length (shp (tn x)) -> names_distinct (names x) -> denotes (length (shp (tn x))) d k ->
  exists y, squeeze x (Some d) = Ok y /\ smeta y = smeta x /\
    let ss := dim_sel (length (shp (tn x))) k (if nth k (shp (tn x)) 0 =? 1 then Drop 0 else Full) in
    names y = kept ss (names x) /\ selected (tn x) ss (tn y).
Proof. intros V x d k. apply squeeze_dim. Qed.
(** squeeze(): right if the unnamed dimensions are all of size one or all not. *)
Theorem C19_squeeze_all_partial : forall (V : Type) (x : @stensor V),
  length (names x) = length (shp (tn x)) -> names_distinct (names x) ->
  (forall i, nth_error (names x) i = Some None -> nth_error (shp (tn x)) i <> Some 1) \/
  (forall i, nth_error (names x) i = Some None -> nth_error (shp (tn x)) i = Some 1) ->
  exists y, squeeze x None = Ok y /\ smeta y = smeta x /\
    names y = kept (map squeezes (shp (tn x))) (names x) /\ selected (tn x) (map squeezes (shp (tn x))) (tn y).
Proof. intros V x. apply squeeze_all. Qed.
Definition ex_unnamed : @stensor Z :=
  mkSt (mkTn [2; 5; 1; 3] digits) [Some "B"; Some "L"; None; None] (of_rows true ex_rows2).
(** Two unnamed dimensions, one of size 1: torch removes one, the names of both are removed, and the call fails. *)
Theorem C19_squeeze_all_refuted : shp (t_squeeze_all (tn ex_unnamed)) = [2; 5; 3] /\ squeeze ex_unnamed None = Err RuntimeError.
Proof. split; vm_compute; reflexivity. Qed.
Example C19_ex :
  (do y <- unsqueeze ex_lb 1; Ok (shp (tn y), names y)) = Ok ([5; 1; 2], [Some "L"; None; Some "B"]) /\
  (do y <- unsqueeze ex_lb (-1); Ok (shp (tn y), names y)) = Ok ([5; 2; 1], [Some "L"; None; Some "B"]) /\
  (do y <- unsqueeze ex_lb 1; do z <- squeeze y (Some (-2)); Ok (shp (tn z), names z)) = Ok ([5; 2], [Some "L"; Some "B"]) /\
  (do y <- unsqueeze ex_lb 1; do z <- squeeze y None; Ok (shp (tn z), names z)) = Ok ([5; 2], [Some "L"; Some "B"]).
Proof. split; [|split; [|split]]; vm_compute; reflexivity. Qed.

(* ------------------------------------------------------------------ C20 *)

(** Any end but -1: a plain tensor if the batch or length dimension is flattened. *)
Theorem C20_falls_back_partial : forall (V : Type) (x : @stensor V) s e a b, length (names x) = length (shp (tn x)) ->
  denotes (length (shp (tn x))) s a -> denotes (length (shp (tn x))) e b -> (a <= b)%nat -> e <> -1 ->
  (exists k, (a <= k <= b)%nat /\ (nth_error (names x) k = Some (Some "B") \/ nth_error (names x) k = Some (Some "L"))) ->
  exists t', flatten x s e = Ok (inl t') /\ flattened a b (tn x) t'.
Proof. intros V x s e a b. apply flatten_falls_back. Qed.
(** Otherwise the names are joined, if all of them exist and the joined name is new. *)
Theorem C20_joins_partial : forall (V : Type) (x : @stensor V) s e a b l, length (names x) = length (shp (tn x)) ->
  names_distinct (names x) -> denotes (length (shp (tn x))) s a -> denotes (length (shp (tn x))) e b -> (a <= b)%nat -> e <> -1 ->
  between a b (names x) = map Some l -> ~ In "B" l -> ~ In "L" l -> String.concat "_" l <> "" ->
  ~ In (Some (String.concat "_" l)) (firstn a (names x)) -> ~ In (Some (String.concat "_" l)) (skipn (S b) (names x)) ->
  exists y, flatten x s e = Ok (inr y) /\
    names y = firstn a (names x) ++ Some (String.concat "_" l) :: skipn (S b) (names x) /\
    smeta y = smeta x /\ flattened a b (tn x) (tn y).
Proof. intros V x s e a b l. apply flatten_joins. Qed.
(** end = -1, the default, always fails. *)
Theorem C20_default_end_refuted : forall (V : Type) (x : @stensor V) s a, length (names x) = length (shp (tn x)) ->
  denotes (length (shp (tn x))) s a -> flatten x s (-1) = Err RuntimeError.
Proof. intros V x s a. apply flatten_minus_one. Qed.
(** Flattening an unnamed dimension (and neither batch nor length) always fails. *)
Theorem C20_unnamed_refuted : forall (V : Type) (x : @stensor V) s e a b, length (names x) = length (shp (tn x)) ->
  denotes (length (shp (tn x))) s a -> denotes (length (shp (tn x))) e b -> (a <= b)%nat -> e <> -1 ->
  ~ In (Some "B") (between a b (names x)) -> ~ In (Some "L") (between a b (names x)) -> In None (between a b (names x)) ->
  flatten x s e = Err TypeError.
Proof. intros V x s e a b. apply flatten_unnamed. Qed.
Definition ex_chf : @stensor Z :=
  mkSt (mkTn [2; 2; 3; 5] digits) [Some "B"; Some "C"; Some "F"; Some "L"] (of_rows true ex_rows2).
Example C20_ex :
  (match flatten ex_chf 1 2 with
   | Ok (inr y) => Ok (shp (tn y), names y, at_ (tn y) [1; 4; 3])
   | _ => Err Undefined end) = Ok ([2; 6; 5], [Some "B"; Some "C_F"; Some "L"], 1113) /\
  (match flatten ex_chf (-2) 3 with Ok (inl t) => Ok (shp t, at_ t [1; 0; 7]) | _ => Err Undefined end) = Ok ([2; 2; 15], 1012) /\
  flatten ex_chf 2 (-1) = Err RuntimeError.
Proof. split; [|split]; vm_compute; reflexivity. Qed.

(* ------------------------------------------------------------------ C21 *)

Theorem C21_permute : forall (V : Type) (x : @stensor V) dims ds, length (names x) = length (shp (tn x)) ->
  names_distinct (names x) -> Forall2 (denotes (length (shp (tn x)))) dims ds -> Permutation ds (seq 0 (length (shp (tn x)))) ->
  exists y, permute x dims = Ok y /\ names y = map (fun d => nth d (names x) None) ds /\ smeta y = smeta x /\
    permuted ds (tn x) (tn y).
Proof. intros V x dims ds. apply permute_ok. Qed.
(** Dimensions that are not a permutation are refused; a number that denotes no dimension is an IndexError. *)
Theorem C21_permute_refused : forall (V : Type) (x : @stensor V) dims,
  (forall ds, Forall2 (denotes (length (shp (tn x)))) dims ds -> ~ Permutation ds (seq 0 (length (shp (tn x)))) -> permute x dims = Err RuntimeError) /\
  (length dims = length (shp (tn x)) -> Exists (fun d => ~ exists k, denotes (length (shp (tn x))) d k) dims -> permute x dims = Err IndexError).
Proof. intros V x dims. split; [exact (permute_refused x dims)|]. intros _. exact (permute_outside x dims). Qed.
Example C21_permute_refused_example : permute ex_x [2; 0; -1] = Err RuntimeError /\ permute ex_x [1; 0] = Err RuntimeError /\ permute ex_x [2; 0; 3] = Err IndexError.
Proof. split; [|split]; vm_compute; reflexivity. Qed.
Theorem C21_T : forall (V : Type) (x : @stensor V), length (names x) = length (shp (tn x)) -> names_distinct (names x) ->
  exists y, transpose_all x = Ok y /\ names y = rev (names x) /\ smeta y = smeta x /\
    permuted (rev (seq 0 (length (shp (tn x))))) (tn x) (tn y).
Proof. intros V x. apply transpose_all_ok. Qed.
Theorem C21_method_transpose : forall (V : Type) (x : @stensor V) d0 d1 a b,
  denotes (length (shp (tn x))) d0 a -> denotes (length (shp (tn x))) d1 b ->
  exists y, method_transpose x d0 d1 = Ok y /\
    names y = map (fun d => nth d (names x) None) (exchange (length (shp (tn x))) a b) /\ smeta y = smeta x /\
    permuted (exchange (length (shp (tn x))) a b) (tn x) (tn y).
Proof. intros V x d0 d1 a b. apply method_transpose_ok. Qed.
(** torch.transpose(x, ...) exchanges the data but not the names, whenever the two dimensions have different names. *)
Theorem C21_torch_transpose_refuted : forall (V : Type) (x : @stensor V) d0 d1 a b, length (names x) = length (shp (tn x)) ->
  names_distinct (names x) -> denotes (length (shp (tn x))) d0 a -> denotes (length (shp (tn x))) d1 b ->
  nth a (names x) None <> nth b (names x) None ->
  exists y, torch_transpose x d0 d1 = Ok y /\ permuted (exchange (length (shp (tn x))) a b) (tn x) (tn y) /\
    names y <> map (fun d => nth d (names x) None) (exchange (length (shp (tn x))) a b).
Proof. intros V x d0 d1 a b. apply torch_transpose_wrong. Qed.
(** x.permute((1, 0)), a form torch accepts, always fails. *)
Theorem C21_permute_tuple_refuted : forall (V : Type) (x : @stensor V) l, exists e, tensor_permute x (PTuple l) = Err e.
Proof. intros V x l. apply permute_tuple_fails. Qed.
Example C21_ex :
  (do y <- tensor_permute ex_x (PStar [2; 0; -2]); Ok (shp (tn y), names y, at_ (tn y) [4; 1; 0])) =
    Ok ([5; 2; 2], [Some "L"; Some "B"; Some "F"], 104) /\
  (do y <- method_transpose ex_x 0 (-1); Ok (shp (tn y), names y)) = Ok ([5; 2; 2], [Some "L"; Some "F"; Some "B"]) /\
  (do y <- torch_transpose ex_x 0 (-1); Ok (shp (tn y), names y)) = Ok ([5; 2; 2], [Some "B"; Some "F"; Some "L"]).
Proof. split; [|split]; vm_compute; reflexivity. Qed.

(* ------------------------------------------------------------------ C22 *)

(** Every split size that fits: the j-th piece is in step with the j-th range of positions, and every position (along
    length: every position that is real for some stream) is in some piece. *)
Theorem C22_split : forall (V : Type) (x : @stensor V) bd ld c rs T d k n sz, stream_ok x bd ld c rs T ->
  denotes (length (shp (tn x))) d k -> nth_error (shp (tn x)) k = Some n -> split_fits n sz -> (k = ld -> rs <> []) ->
  exists ys, split x sz d = Ok ys /\
    (forall j y, nth_error ys j = Some y ->
       in_step x bd ld c rs false (dim_sel (length (shp (tn x))) k (Keep (piece_positions sz n j))) y) /\
    (forall p, 0 <= p < n -> (k = ld -> exists r, In r rs /\ p < rlen r) ->
       exists j y, nth_error ys j = Some y /\ In p (piece_positions sz n j)).
Proof. intros V x bd ld c rs T d k n sz. apply split_in_step. Qed.
Theorem C22_unbind : forall (V : Type) (x : @stensor V) bd ld c rs T d k n, stream_ok x bd ld c rs T ->
  denotes (length (shp (tn x))) d k -> nth_error (shp (tn x)) k = Some n -> k <> ld ->
  exists ys, unbind x d = Ok ys /\ zlen ys = n /\
    (forall j y, nth_error ys j = Some y -> in_step x bd ld c rs false (dim_sel (length (shp (tn x))) k (Drop (Z.of_nat j))) y).
Proof. intros V x bd ld c rs T d k n. apply unbind_in_step. Qed.
Theorem C22_unbind_length_refused : forall (V : Type) (x : @stensor V) bd ld c rs T d, stream_ok x bd ld c rs T ->
  denotes (length (shp (tn x))) d ld -> unbind x d = Err ValueError.
Proof. intros V x bd ld c rs T d. apply unbind_length_refused. Qed.
(** Arguments that are refused: a dimension that does not exist, sizes that do not fit the dimension; a size of 0 on an empty
    dimension, which torch accepts, is refused along batch and length; without streams the length dimension cannot be split. *)
Theorem C22_no_such_dim : forall (V : Type) (x : @stensor V) sz d, (forall k, ~ denotes (length (shp (tn x))) d k) ->
  split x sz d = Err IndexError /\ unbind x d = Err IndexError.
Proof. intros V x sz d H. split; [now apply split_no_dim|now apply unbind_no_dim]. Qed.
Theorem C22_split_refused : forall (V : Type) (x : @stensor V) bd ld c rs T d k n sz, stream_ok x bd ld c rs T ->
  denotes (length (shp (tn x))) d k -> nth_error (shp (tn x)) k = Some n -> ~ split_fits n sz ->
  (~ (sz = SInt 0 /\ n = 0) -> split x sz d = Err RuntimeError) /\
  (sz = SInt 0 -> n = 0 -> k = bd -> split x sz d = Err ValueError) /\
  (sz = SInt 0 -> n = 0 -> k = ld -> rs <> [] -> split x sz d = Err ZeroDivisionError).
Proof.
  intros V x bd ld c rs T d k n sz H HD Hk Hf. split; [|split].
  - intros H0. eapply split_refused; eauto.
  - intros -> -> Hb. destruct (split_zero x bd ld c rs T d k H HD Hk) as [A _]. auto.
  - intros -> -> Hb Hr. destruct (split_zero x bd ld c rs T d k H HD Hk) as [_ A]. auto.
Qed.
Theorem C22_no_streams : forall (V : Type) (x : @stensor V) bd ld c T d sz, stream_ok x bd ld c [] T -> denotes (length (shp (tn x))) d ld ->
  split_fits T sz -> split x sz d = Err RuntimeError.
Proof. intros V x bd ld c T d sz. apply split_no_streams. Qed.
Example C22_refused_ex :
  split ex_lb (SInt 3) 2 = Err IndexError /\ split ex_lb (SInt 0) 0 = Err RuntimeError /\ split ex_lb (SList [1; 2]) 1 = Err RuntimeError /\
  split (mkSt (mkTn [2; 0] digits) [Some "B"; Some "L"] (of_rows true [mkRow "a" true true 0 0; mkRow "b" true true 0 0])) (SInt 0) 1 = Err ZeroDivisionError /\
  split (mkSt (mkTn [0; 3] digits) [Some "B"; Some "L"] (of_rows true [])) (SInt 1) 1 = Err RuntimeError.
Proof. split; [|split; [|split; [|split]]]; vm_compute; reflexivity. Qed.
Definition see_all (r : res (list (@stensor Z))) : res (list (list Z * list Z * list dname * meta)) :=
  do ys <- r; mapM (fun y => see (Ok y)) ys.
Example C22_ex :
  see_all (split ex_lb (SInt 3) (-2)) =
    Ok [([3; 2], [0; 1; 10; 11; 20; 21], [Some "L"; Some "B"], of_rows true [mkRow "a" true false 3 0; mkRow "b" false true 2 3]);
        ([2; 2], [30; 31; 40; 41], [Some "L"; Some "B"], of_rows true [mkRow "a" false false 2 0; mkRow "b" false false 0 3])] /\
  see_all (unbind ex_lb 1) =
    Ok [([5], [0; 10; 20; 30; 40], [Some "L"], of_rows true [mkRow "a" true false 5 0]);
        ([5], [1; 11; 21; 31; 41], [Some "L"], of_rows true [mkRow "b" false true 2 3])] /\
  unbind ex_lb 0 = Err ValueError.
Proof. split; [|split]; vm_compute; reflexivity. Qed.

(* ------------------------------------------------------------------ C23 *)

(** Along batch: rows are appended (chunk indices survive iff every operand has them), and plain tensors are refused. *)
Theorem C23_batch : forall (V : Type) (x0 x1 : @stensor V) xs dim bd (l : list (bool * list row)),
  alike bd x0 (x1 :: xs) -> denotes (length (shp (tn x0))) dim bd -> nth_error (names x0) bd = Some (Some "B") ->
  map smeta (x0 :: x1 :: xs) = map (fun p => of_rows (fst p) (snd p)) l ->
  exists y, cat (map OStream (x0 :: x1 :: xs)) dim = Ok (OStream y) /\ names y = names x0 /\
    concatenated bd (tn x0) (map tn (x1 :: xs)) (tn y) /\
    smeta y = of_rows (forallb fst l) (List.concat (map snd l)).
Proof. intros V x0 x1 xs dim bd l. apply cat_batch_streams. Qed.
Theorem C23_batch_refuses_plain : forall (V : Type) (ops : list (@operand V)) dim ns, (2 <= length ops)%nat ->
  mapM (fun x => names_at_dim x dim) (streams_of ops) = Ok ns -> In (Some "B") ns -> (exists t, In (OPlain t) ops) ->
  cat ops dim = Err ValueError.
Proof. intros V ops dim ns. apply cat_batch_mixed. Qed.
(** Along length, streams and plain tensors (all real data) mixed: if no row before the last operand is padded and the
    streams fit together, the real steps of the result are exactly the real steps of the operands, in order. *)
Theorem C23_length : forall (V : Type) (o0 o1 : @operand V) os dim ld nms m0 ms,
  let ops := o0 :: o1 :: os in
  along_length ld nms ops -> denotes (length nms) dim ld ->
  map smeta (streams_of ops) = m0 :: ms -> cat_compatible (m0 :: ms) ->
  (forall o b, In o (removelast ops) -> (b < length (ids m0))%nat -> op_full ld b o) ->
  exists y, cat ops dim = Ok (OStream y) /\ names y = nms /\
    concatenated ld (op_tensor o0) (map op_tensor (o1 :: os)) (tn y) /\
    ids (smeta y) = ids m0 /\ sos (smeta y) = sos m0 /\ eos (smeta y) = eos (last ms m0) /\
    chs (smeta y) = chs (last ms m0) /\ length (lens (smeta y)) = length (ids m0) /\
    (forall b, (b < length (ids m0))%nat ->
       nth b (lens (smeta y)) 0 = zsum (map (op_len ld b) ops) /\
       (forall j o i, nth_error ops j = Some o -> 0 <= i < nth ld (shp (op_tensor o)) 0 ->
          (zsum (map (fun u => nth ld (shp u) 0) (firstn j (map op_tensor ops))) + i < nth b (lens (smeta y)) 0
             <-> i < op_len ld b o))).
Proof. intros V o0 o1 os dim ld nms m0 ms. apply cat_length_mixed. Qed.
(** Otherwise the call is refused. *)
Theorem C23_length_refuses : forall (V : Type) (o0 o1 : @operand V) os dim ld nms,
  let ops := o0 :: o1 :: os in
  along_length ld nms ops -> denotes (length nms) dim ld ->
  ((exists x b, In (OStream x) (removelast ops) /\ (b < length (lens (smeta x)))%nat /\ ~ op_full ld b (OStream x)) ->
     cat ops dim = Err NotImplementedError) /\
  ((2 <= length (streams_of ops))%nat -> ~ cat_compatible (map smeta (streams_of ops)) -> exists e, cat ops dim = Err e).
Proof. intros V o0 o1 os dim ld nms. apply cat_length_refused. Qed.
Definition see_op (r : res (@operand Z)) : res (list Z * list Z * list dname * meta) :=
  do o <- r; match o with OStream y => see (Ok y) | OPlain _ => Err Undefined end.
Definition ex_piece (id : string) (s e : bool) (n T ch : Z) : @stensor Z :=
  mkSt (mkTn [1; T] (fun ix => digits (ch :: ix))) [Some "B"; Some "L"] (of_rows true [mkRow id s e n ch]).
Example C23_ex :
  see_op (cat [OStream (ex_piece "a" true false 2 2 1); OPlain (mkTn [1; 1] (fun _ => 7)); OStream (ex_piece "a" false true 1 2 2)] 1) =
    Ok ([1; 5], [100; 101; 7; 200; 201], [Some "B"; Some "L"], of_rows true [mkRow "a" true true 4 2]) /\
  see_op (cat [OStream (ex_piece "a" true false 1 2 1); OStream (ex_piece "a" false true 2 2 2)] 1) = Err NotImplementedError /\
  see_op (cat [OStream (ex_piece "a" true false 2 2 1); OStream (ex_piece "b" false true 2 2 2)] 1) = Err ValueError /\
  see_op (cat [OStream (ex_piece "a" true false 1 2 1); OStream (ex_piece "b" false true 2 2 2)] (-2)) =
    Ok ([2; 2], [100; 101; 200; 201], [Some "B"; Some "L"], of_rows true [mkRow "a" true false 1 1; mkRow "b" false true 2 2]).
Proof. split; [|split; [|split]]; vm_compute; reflexivity. Qed.
(** Chunks 1, 3, 2 of a stream are concatenated in this order without complaint, although chunk indices are there. *)
Theorem C23_out_of_order_refuted :
  see_op (cat [OStream (ex_piece "a" true false 2 2 1); OStream (ex_piece "a" false false 2 2 3);
               OStream (ex_piece "a" false false 2 2 2)] 1) =
    Ok ([1; 6], [100; 101; 300; 301; 200; 201], [Some "B"; Some "L"], of_rows true [mkRow "a" true false 6 2]).
Proof. vm_compute. reflexivity. Qed.
(** Along another dimension, without chunk indices: equal metadata are required of all operands but the last. *)
Theorem C23_other_dim_partial : forall (V : Type) (x0 x1 : @stensor V) xs dim d nm,
  alike d x0 (x1 :: xs) -> denotes (length (shp (tn x0))) dim d -> nth_error (names x0) d = Some nm ->
  nm <> Some "B" -> nm <> Some "L" -> Forall (fun x => chs (smeta x) = None) (x0 :: x1 :: xs) ->
  (Forall (fun x => smeta x = smeta x0) (removelast (x1 :: xs)) ->
     exists y, cat (map OStream (x0 :: x1 :: xs)) dim = Ok (OStream y) /\ names y = names x0 /\ smeta y = smeta x0 /\
       concatenated d (tn x0) (map tn (x1 :: xs)) (tn y)) /\
  (~ Forall (fun x => smeta x = smeta x0) (removelast (x1 :: xs)) ->
     cat (map OStream (x0 :: x1 :: xs)) dim = Err AttributeError).
Proof. intros V x0 x1 xs dim d nm. apply cat_other_nochunks. Qed.
(** The last operand is not compared: two different streams are joined as if they were one. *)
Theorem C23_other_dim_refuted :
  let feat id := mkSt (mkTn [1; 1; 2] digits) [Some "B"; Some "F"; Some "L"] (of_rows false [mkRow id true false 2 0]) in
  see_op (cat [OStream (feat "a"); OStream (feat "b")] 1) =
    Ok ([1; 2; 2], [0; 1; 0; 1], [Some "B"; Some "F"; Some "L"], of_rows false [mkRow "a" true false 2 0]).
Proof. vm_compute. reflexivity. Qed.
(** With chunk indices even equal metadata are refused, unless chunk indices and lengths happen to be the same. *)
Theorem C23_other_dim_chunks_refuted : forall (V : Type) (x0 x1 : @stensor V) xs dim d nm cs,
  alike d x0 (x1 :: xs) -> denotes (length (shp (tn x0))) dim d -> nth_error (names x0) d = Some nm ->
  nm <> Some "B" -> nm <> Some "L" -> chs (smeta x0) = Some cs -> cs <> lens (smeta x0) ->
  cat (map OStream (x0 :: x1 :: xs)) dim = Err ValueError.
Proof. intros V x0 x1 xs dim d nm cs. apply cat_other_chunks. Qed.

(* ---- assumptions *)
Print Assumptions C14_drop_empty_partial.
Print Assumptions C14_one_left_refuted.
Print Assumptions C15_names.
Print Assumptions C15_empty_tuple_refuted.
Print Assumptions C16_in_step_partial.
Print Assumptions C16_real_steps.
Print Assumptions C16_slices_in_order.
Print Assumptions C16_slice_flags.
Print Assumptions C16_select.
Print Assumptions C16_negative_time_refuted.
Print Assumptions C17_narrow_partial.
Print Assumptions C17_narrow_outside.
Print Assumptions C17_negative_start_refuted.
Print Assumptions C18_index_select_partial.
Print Assumptions C18_negative_dim_refuted.
Print Assumptions C19_unsqueeze_partial.
Print Assumptions C19_unsqueeze_negative_refuted.
Print Assumptions C19_squeeze_dim.
Print Assumptions C19_squeeze_all_partial.
Print Assumptions C19_squeeze_all_refuted.
Print Assumptions C20_falls_back_partial.
Print Assumptions C20_joins_partial.
Print Assumptions C20_default_end_refuted.
Print Assumptions C20_unnamed_refuted.
Print Assumptions C21_permute.
Print Assumptions C21_permute_refused.
Print Assumptions C21_T.
Print Assumptions C21_method_transpose.
Print Assumptions C21_torch_transpose_refuted.
Print Assumptions C21_permute_tuple_refuted.
Print Assumptions C22_split.
Print Assumptions C22_unbind.
Print Assumptions C22_unbind_length_refused.
Print Assumptions C22_no_such_dim.
Print Assumptions C22_split_refused.
Print Assumptions C22_no_streams.
Print Assumptions C23_batch.
Print Assumptions C23_batch_refuses_plain.
Print Assumptions C23_length.
Print Assumptions C23_length_refuses.
Print Assumptions C23_out_of_order_refuted.
Print Assumptions C23_other_dim_partial.
Print Assumptions C23_other_dim_refuted.
Print Assumptions C23_other_dim_chunks_refuted.

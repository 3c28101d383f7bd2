(** Theorems of record about index expressions with tensors of any rank, several lists, None and several Ellipsis. *)

From Coq Require Import String List ZArith Bool Lia.
From Coq Require Import ZifyBool.
From Verif Require Import Py Meta MetaSpec Named NamedSpec Gather FullIndex FullIndexSpec FullIndexProofs FullRankProofs FullMaskProofs FullMaskGetProofs
  FullIntsProofs FullNoneProofs.
Import ListNotations.
Open Scope string_scope.
Open Scope list_scope.
Open Scope Z_scope.

(** Two streams "a" (3 steps, starting) and "b" (2 steps, ending), 2 features; the value at (b, f, t) is 100 b + 10 f + t. *)
Definition ix_rows : list row := [mkRow "a" true false 3 0; mkRow "b" false true 2 1].
Definition ix_x : @stensor Z :=
  mkSt (mkTn [2; 2; 3] (fun p => 100 * nth 0 p 0 + 10 * nth 1 p 0 + nth 2 p 0)) [Some "B"; Some "F"; Some "L"] (of_rows true ix_rows).
Definition ix_values (t : @tensor Z) : list Z := map (at_ t) (all_positions (shp t)).
Definition ix_full : xitem := Plain (ISlice (mkSlice None None None)).

(* ------------------------------------------------------------------ C58 *)

(** The complete model agrees with the model of C15 to C17 wherever that one is defined. *)
Theorem C58_restricts : forall (V : Type) (x : @stensor V) ix,
  torch_getitem (tn x) ix <> Err Undefined -> x_getitem x (lift ix) = do y <- getitem x ix; Ok (OStream y).
Proof. intros V x ix. apply getitem_restricts. Qed.

Example C58_restricts_example :
  torch_getitem (tn ix_x) (Tuple [IInt 1; IEll; ISlice (mkSlice None (Some 2) None)]) <> Err Undefined /\
  exists y, x_getitem ix_x (lift (Tuple [IInt 1; IEll; ISlice (mkSlice None (Some 2) None)])) = Ok (OStream y) /\
    names y = [Some "F"; Some "L"] /\ ix_values (tn y) = [100; 101; 110; 111] /\ smeta y = of_rows true [mkRow "b" false true 2 1].
Proof.
  split; [vm_compute; discriminate|]. eexists. split; [vm_compute; reflexivity|].
  split; [reflexivity|]. split; vm_compute; reflexivity.
Qed.

(** Only few index expressions with lists and tensors give a StreamTensor: at most one list or tensor, no 0-d tensor, and a
    mask with two or more dimensions only as the last item and without Ellipsis.  All others raise. *)
Theorem C58_accepted : forall (V : Type) (x y : @stensor V) l,
  length (names x) = length (shp (tn x)) -> (length (filter dots l) <= 1)%nat -> x_getitem x (XTuple l) = Ok (OStream y) ->
  (length (filter listlike l) <= 1)%nat /\ existsb zero_dim l = false /\
  (forall l1 i l2, l = l1 ++ i :: l2 -> wide i = true -> l2 = [] /\ existsb dots l1 = false).
Proof. intros V x y l. apply accepted_shape. Qed.

Example C58_accepted_example :
  x_getitem ix_x (XTuple [Plain (IList [0; 1]); ix_full; Plain (IList [0; 1])]) = Err RuntimeError /\
  x_getitem ix_x (XTuple [XMask (mkTn [2; 2] (fun p => true)); ix_full]) = Err RuntimeError /\
  x_getitem ix_x (XTuple [ix_full; Plain (IScalar 0)]) = Err RuntimeError /\
  (exists y, x_getitem ix_x (XTuple [ix_full; ix_full; XInts (mkTn [2] (fun p => nth 0 p 0))]) = Ok (OStream y)).
Proof. split; [vm_compute; reflexivity|]. split; [vm_compute; reflexivity|]. split; [vm_compute; reflexivity|]. eexists. vm_compute. reflexivity. Qed.

(** A mask over two or more named dimensions, after ints and slices for the dimensions before it: the data are the masked
    elements in row-major order, the masked dimensions become one that carries their joined names, and the metadata
    describe the streams (steps) in which the mask is true anywhere.  If the mask covers batch and length the result is
    a plain tensor. *)
Theorem C58_mask : forall (V : Type) (x : @stensor V) bd ld c rs T pre ss m ns nm1 nm3 n1 n3 sb sl,
  stream_ok x bd ld c rs T ->
  shp (tn x) = n1 ++ shp m ++ n3 -> names x = nm1 ++ map Some ns ++ nm3 -> length nm1 = length n1 -> length ns = length (shp m) ->
  (2 <= length (shp m))%nat -> picks_all n1 pre ss -> existsb fancy pre = false ->
  chosen ss m bd sb -> chosen ss m ld sl ->
  exists t' nn, nn = kept ss nm1 ++ Some (String.concat "_" ns) :: nm3 /\
    (exists t1, selected (tn x) (ss ++ repeat Full (length (shp m ++ n3))) t1 /\ masked_out (length (kept ss nm1)) m t1 t') /\
    ((length pre <= bd < length pre + length (shp m))%nat -> (length pre <= ld < length pre + length (shp m))%nat ->
      x_getitem x (XTuple (map Plain pre ++ [XMask m])) = Ok (OPlain t')) /\
    (~ ((length pre <= bd < length pre + length (shp m))%nat /\ (length pre <= ld < length pre + length (shp m))%nat) ->
     names_distinct nn ->
     (sl = Full \/ exists mx, is_max_len (sel_rows sb rs) mx /\
        ((ld < length pre)%nat /\ sound_time T mx (nth ld pre INone) \/ (length pre <= ld)%nat /\ sl <> Keep [])) ->
     exists rs', x_getitem x (XTuple (map Plain pre ++ [XMask m])) = Ok (OStream (mkSt t' nn (of_rows c rs'))) /\
       sel_time (Nat.leb (length pre) ld) sl (sel_rows sb rs) rs').
Proof. intros V x bd ld c rs T pre ss m ns nm1 nm3 n1 n3 sb sl. apply getitem_mask. Qed.

(** Batch and feature under the mask, then feature and length, then batch, feature and length. *)
Example C58_mask_example :
  (exists y, x_getitem ix_x (XTuple [XMask (mkTn [2; 2] (fun p => nth 0 p 0 =? 1))]) = Ok (OStream y) /\
     names y = [Some "B_F"; Some "L"] /\ ix_values (tn y) = [100; 101; 102; 110; 111; 112] /\
     smeta y = of_rows true [mkRow "b" false true 2 1])
  /\ (exists y, x_getitem ix_x (XTuple [Plain (ISlice (mkSlice (Some 1) None None)); XMask (mkTn [2; 3] (fun p => nth 1 p 0 <? 1 + nth 0 p 0))]) = Ok (OStream y) /\
     names y = [Some "B"; Some "F_L"] /\ ix_values (tn y) = [100; 110; 111] /\
     smeta y = of_rows true [mkRow "b" false false 2 1])
  /\ (exists t, x_getitem ix_x (XTuple [XMask (mkTn [2; 2; 3] (fun p => nth 0 p 0 + nth 2 p 0 =? 2))]) = Ok (OPlain t) /\
     ix_values t = [2; 12; 101; 111]).
Proof.
  split; [|split].
  - eexists. split; [vm_compute; reflexivity|]. split; [reflexivity|]. split; vm_compute; reflexivity.
  - eexists. split; [vm_compute; reflexivity|]. split; [reflexivity|]. split; vm_compute; reflexivity.
  - eexists. split; [vm_compute; reflexivity|]. vm_compute; reflexivity.
Qed.

(** x[mask] is x[(mask,)]. *)
Theorem C58_mask_alone : forall (V : Type) (x : @stensor V) m,
  length (names x) = length (shp (tn x)) -> (2 <= length (shp m))%nat ->
  x_getitem x (XSingle (XMask m)) = x_getitem x (XTuple [XMask m]).
Proof. intros V x m. apply mask_single. Qed.

Example C58_mask_alone_example :
  exists y, x_getitem ix_x (XSingle (XMask (mkTn [2; 2] (fun p => nth 1 p 0 =? 0)))) = Ok (OStream y) /\
    names y = [Some "B_F"; Some "L"] /\ ix_values (tn y) = [0; 1; 2; 100; 101; 102] /\ smeta y = of_rows true ix_rows.
Proof. eexists. split; [vm_compute; reflexivity|]. split; [reflexivity|]. split; vm_compute; reflexivity. Qed.

(** A mask over an unnamed dimension always fails, because None cannot be joined to a name. *)
Theorem C58_mask_unnamed_refuted : forall (V : Type) (x : @stensor V) pre ss m nmm nm1 nm3 n1 n3,
  Forall (fun n => 0 <= n) (shp (tn x)) ->
  shp (tn x) = n1 ++ shp m ++ n3 -> names x = nm1 ++ nmm ++ nm3 -> length nm1 = length n1 -> length nmm = length (shp m) ->
  (2 <= length (shp m))%nat -> picks_all n1 pre ss -> existsb fancy pre = false -> In None nmm ->
  x_getitem x (XTuple (map Plain pre ++ [XMask m])) = Err TypeError.
Proof. intros V x pre ss m nmm nm1 nm3 n1 n3. apply getitem_mask_unnamed. Qed.

Example C58_mask_unnamed_refuted_example :
  x_getitem (mkSt (tn ix_x) [Some "B"; None; Some "L"] (of_rows true ix_rows)) (XTuple [XMask (mkTn [2; 2] (fun p => true))]) = Err TypeError.
Proof. vm_compute. reflexivity. Qed.

(** An integer tensor of any rank for a dimension that is neither batch nor length: the data are looked up, all but the last
    of the new dimensions are unnamed, and the metadata follow the other items.  With two or more dimensions and for batch
    or length it never gives a result. *)
Theorem C58_ints : forall (V : Type) (x : @stensor V) bd ld c rs T pre post ss1 ss2 m nm1 nm nm2 nm3 n1 n n2 n3,
  stream_ok x bd ld c rs T ->
  shp (tn x) = n1 ++ n :: n2 ++ n3 -> names x = nm1 ++ nm :: nm2 ++ nm3 -> length nm1 = length n1 -> length nm2 = length n2 ->
  picks_all n1 pre ss1 -> picks_all n2 post ss2 -> existsb fancy pre = false -> existsb fancy post = false ->
  (1 <= length (shp m))%nat -> (forall p, in_range (shp m) p -> - n <= at_ m p < n) ->
  ((bd = length pre \/ ld = length pre) -> (2 <= length (shp m))%nat ->
    exists e, x_getitem x (XTuple (map Plain pre ++ XInts m :: map Plain post)) = Err e) /\
  (bd <> length pre -> ld <> length pre ->
    forall ss, ss = ss1 ++ Full :: ss2 ++ repeat Full (length n3) ->
    (nth ld ss Full = Full \/
      exists mx, is_max_len (sel_rows (nth bd ss Full) rs) mx /\ sound_time T mx (nth ld (pre ++ all_item :: post) all_item)) ->
    exists y t1 rs', x_getitem x (XTuple (map Plain pre ++ XInts m :: map Plain post)) = Ok (OStream y) /\
      names y = kept ss1 nm1 ++ repeat None (length (shp m) - 1) ++ nm :: kept ss2 nm2 ++ nm3 /\
      selected (tn x) ss t1 /\ looked_up (length (kept ss1 nm1)) m t1 (tn y) /\
      smeta y = of_rows c rs' /\ sel_time false (nth ld ss Full) (sel_rows (nth bd ss Full) rs) rs').
Proof. intros V x bd ld c rs T pre post ss1 ss2 m nm1 nm nm2 nm3 n1 n n2 n3. apply getitem_ints. Qed.

Example C58_ints_example :
  (exists y, x_getitem ix_x (XTuple [Plain (IInt 0); XInts (mkTn [2; 1] (fun p => - 1 - nth 0 p 0)); Plain (ISlice (mkSlice None (Some 2) None))]) = Ok (OStream y) /\
     shp (tn y) = [2; 1; 2] /\ names y = [None; Some "F"; Some "L"] /\ ix_values (tn y) = [10; 11; 0; 1] /\
     smeta y = of_rows true [mkRow "a" true false 2 0])
  /\ x_getitem ix_x (XTuple [XInts (mkTn [1; 1] (fun p => 0))]) = Err IndexError.
Proof.
  split; [|vm_compute; reflexivity].
  eexists. split; [vm_compute; reflexivity|]. split; [reflexivity|]. split; [reflexivity|]. split; vm_compute; reflexivity.
Qed.

(* ------------------------------------------------------------------ C59 *)

(** None after all other items adds unnamed dimensions of size one, at the end of the dimensions the other items speak about
    (at the very end if there is an Ellipsis), and changes nothing else. *)
Theorem C59_nones_last : forall (V : Type) (x y : @stensor V) l items ss j k,
  length (names x) = length (shp (tn x)) -> Forall (fun n => 0 <= n) (shp (tn x)) ->
  spreads (length (shp (tn x))) (Tuple l) items -> picks_all (shp (tn x)) items ss ->
  getitem x (Tuple l) = Ok y ->
  k = (length (shp (tn y)) - (if has_dots l then 0 else length (shp (tn x)) - length l))%nat ->
  exists y', getitem x (Tuple (l ++ repeat INone j)) = Ok y' /\ smeta y' = smeta y /\
    names y' = firstn k (names y) ++ repeat None j ++ skipn k (names y) /\ new_dims k j (tn y) (tn y').
Proof. intros V x y l items ss j k HR Hn HS HP Hy ->. exact (getitem_nones x l items ss j y HR Hn HS HP Hy). Qed.

Example C59_nones_last_example :
  (exists y, getitem ix_x (Tuple [IInt 1; INone; INone]) = Ok y /\ shp (tn y) = [1; 1; 2; 3] /\
     names y = [None; None; Some "F"; Some "L"] /\ smeta y = of_rows true [mkRow "b" false true 2 1])
  /\ (exists y, getitem ix_x (Tuple [IEll; ISlice (mkSlice None (Some 1) None); INone]) = Ok y /\ shp (tn y) = [2; 2; 1; 1] /\
     names y = [Some "B"; Some "F"; Some "L"; None] /\ smeta y = of_rows true [mkRow "a" true false 1 0; mkRow "b" false false 1 1]).
Proof.
  split; eexists; (split; [vm_compute; reflexivity|]); (split; [reflexivity|]); (split; [reflexivity|]); vm_compute; reflexivity.
Qed.

(** Nothing but None. *)
Theorem C59_only_nones : forall (V : Type) (x : @stensor V) bd ld j,
  length (names x) = length (shp (tn x)) -> names_distinct (names x) ->
  nth_error (names x) bd = Some (Some "B") -> nth_error (names x) ld = Some (Some "L") ->
  exists y', getitem x (Tuple (repeat INone (S j))) = Ok y' /\ smeta y' = smeta x /\
    names y' = repeat None (S j) ++ names x /\ new_dims 0 (S j) (tn x) (tn y').
Proof. intros V x bd ld j. apply getitem_only_nones. Qed.

Example C59_only_nones_example :
  exists y, getitem ix_x (Tuple [INone; INone]) = Ok y /\ shp (tn y) = [1; 1; 2; 2; 3] /\ names y = [None; None; Some "B"; Some "F"; Some "L"].
Proof. eexists. split; [vm_compute; reflexivity|]. split; reflexivity. Qed.

(** A None before other items shifts what these are taken to index: x[None, 1] holds only stream "b" but describes both
    streams; x[None, :, 1] holds all steps of feature 1, names its stream dimension after the features, and describes
    only step 1; x[:, None, :] fails. *)
Theorem C59_none_first_refuted :
  (exists y, getitem ix_x (Tuple [INone; IInt 1]) = Ok y /\ shp (tn y) = [1; 2; 3] /\
     ix_values (tn y) = [100; 101; 102; 110; 111; 112] /\ smeta y = of_rows true ix_rows)
  /\ (exists y, getitem ix_x (Tuple [INone; ISlice (mkSlice None None None); IInt 1]) = Ok y /\
     ix_values (tn y) = [10; 11; 12; 110; 111; 112] /\ names y = [None; Some "F"; Some "L"] /\
     lens (smeta y) = [1; 1])
  /\ getitem ix_x (Tuple [ISlice (mkSlice None None None); INone; ISlice (mkSlice None None None)]) = Err RuntimeError.
Proof.
  split; [|split].
  - eexists. split; [vm_compute; reflexivity|]. split; [reflexivity|]. split; vm_compute; reflexivity.
  - eexists. split; [vm_compute; reflexivity|]. split; [vm_compute; reflexivity|]. split; [reflexivity|].
    vm_compute; reflexivity.
  - vm_compute. reflexivity.
Qed.

(** Several Ellipsis next to each other at the end are as good as one, whatever precedes them. *)
Theorem C59_dots_last : forall (V : Type) (x : @stensor V) l k,
  filter dots l = [] ->
  x_getitem x (XTuple (l ++ repeat (Plain IEll) (S k))) = x_getitem x (XTuple (l ++ [Plain IEll])).
Proof. intros V x l k. apply getitem_dots. Qed.

Example C59_dots_last_example :
  exists y, x_getitem ix_x (XTuple [Plain (IInt 0); Plain IEll; Plain IEll; Plain IEll]) = Ok (OStream y) /\
    names y = [Some "F"; Some "L"] /\ smeta y = of_rows true [mkRow "a" true false 3 0].
Proof. eexists. split; [vm_compute; reflexivity|]. split; vm_compute; reflexivity. Qed.

(** Two Ellipsis apart from each other: torch takes x[..., 0, ...] as x[:, :, 0], the names and metadata are those of
    x[:, 0, :].  The result holds features under the name of the steps and describes all steps. *)
Theorem C59_dots_apart_refuted :
  exists y, x_getitem ix_x (XTuple [Plain IEll; Plain (IInt 0); Plain IEll]) = Ok (OStream y) /\
    shp (tn y) = [2; 2] /\ ix_values (tn y) = [0; 10; 100; 110] /\ names y = [Some "B"; Some "L"] /\ smeta y = of_rows true ix_rows.
Proof. eexists. split; [vm_compute; reflexivity|]. split; [reflexivity|]. split; [vm_compute; reflexivity|]. split; vm_compute; reflexivity. Qed.

(* ---- assumptions *)
Print Assumptions C58_restricts.
Print Assumptions C58_accepted.
Print Assumptions C58_mask.
Print Assumptions C58_mask_alone.
Print Assumptions C58_mask_unnamed_refuted.
Print Assumptions C58_ints.
Print Assumptions C59_nones_last.
Print Assumptions C59_only_nones.
Print Assumptions C59_none_first_refuted.
Print Assumptions C59_dots_last.
Print Assumptions C59_dots_apart_refuted.

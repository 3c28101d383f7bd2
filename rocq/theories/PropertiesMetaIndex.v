(** Theorems of record about StreamMetadata.__getitem__ and __repr__ (dreamstream/tensor.py 336-402): C61, C62. *)

From Coq Require Import String List ZArith Bool Lia.
From Coq Require Import ZifyBool.
From Verif Require Import Py Meta MetaSpec MetaProofs MaskSpec MetaMaskProofs Named NamedSpec MetaIndex MetaIndexSpec MetaIndexProofs.
Import ListNotations.
Open Scope string_scope.
Open Scope list_scope.
Open Scope Z_scope.

(* ------------------------------------------------------------------ C61 *)

(** meta[i] selects streams, by int, slice, list, tensor or mask. *)
Theorem C61_streams : forall c rs i s, picks (zlen rs) i s ->
  index_meta (of_rows c rs) (MOne i) = Ok (Some (of_rows c (sel_rows s rs))) /\
  (forall tup, index_meta (of_rows c rs) (MSeq tup [EItem i; EItem INone]) = Ok (Some (of_rows c (sel_rows s rs)))).
Proof.
  intros c rs i s H. pose proof (batch_pick' c rs i s H) as B. split.
  - rewrite (one_item _ _ _ _ H), B. reflexivity.
  - intros tup. rewrite right_none, B; [reflexivity|]. apply (picks_bidx _ _ _ H).
Qed.
Example C61_streams_example :
  index_meta (of_rows true [mkRow "a" true false 5 7; mkRow "b" false true 3 8; mkRow "c" true true 4 9]) (MOne (IList [2; -3]))
  = Ok (Some (of_rows true [mkRow "c" true true 4 9; mkRow "a" true false 5 7])) /\
  picks 3 (IList [2; -3]) (Keep [2; 0]).
Proof. split; [vm_compute; reflexivity|]. apply (P_list 3 [2; -3]). constructor; [lia|]. constructor; [lia|constructor]. Qed.

(** meta[i, j] selects streams and then reduces each of them to the selected time steps; meta[None, j] keeps all streams. *)
Theorem C61_pair_partial : forall c rs i j sb sl T mx tup, picks (zlen rs) i sb -> picks T j sl ->
  is_max_len (sel_rows sb rs) mx -> nonneg (sel_rows sb rs) -> mx <= T -> sound_time T mx j ->
  tup = true \/ e_int (EItem i) && e_int (EItem j) = false ->
  exists rs', index_meta (of_rows c rs) (MSeq tup [EItem i; EItem j]) = Ok (Some (of_rows c rs')) /\
    sel_time (fancy j) (steps T sl) (sel_rows sb rs) rs'.
Proof. exact pair_rows. Qed.
Theorem C61_steps_partial : forall c rs j sl T mx tup, picks T j sl -> is_max_len rs mx -> nonneg rs -> mx <= T -> sound_time T mx j ->
  exists rs', index_meta (of_rows c rs) (MSeq tup [EItem INone; EItem j]) = Ok (Some (of_rows c rs')) /\ sel_time (fancy j) (steps T sl) rs rs'.
Proof.
  intros c rs j sl T mx tup Hj Hm Hn HT HS. destruct (time_pick' c rs T mx j sl Hj Hm Hn HT HS) as (rs' & E1 & E2).
  exists rs'. split; auto. rewrite left_none, E1; [reflexivity|]. apply (picks_bidx _ _ _ Hj).
Qed.
Example C61_pair_example :
  index_meta (of_rows false [mkRow "a" true false 5 0; mkRow "b" false true 3 0]) (MSeq true [EItem (IInt 1); EItem (ISlice (mkSlice (Some 1) None None))])
  = Ok (Some (of_rows false [mkRow "b" false true 2 0])) /\
  index_meta (of_rows false [mkRow "a" true false 5 0; mkRow "b" true true 3 0]) (MSeq false [EItem INone; EItem (IInt 0)])
  = Ok (Some (of_rows false [mkRow "a" true false 1 0; mkRow "b" true false 1 0])).
Proof. split; vm_compute; reflexivity. Qed.

(** Two ints mean a stream and a step in a tuple, but two streams in a list; [meta[None]] copies. *)
Theorem C61_list_of_ints : forall c rs l, Forall (fun i => - zlen rs <= i < zlen rs) l ->
  index_meta (of_rows c rs) (MSeq false (map (fun k => EItem (IInt k)) l))
  = Ok (Some (of_rows c (at_positions rs (map (fun i => if i <? 0 then i + zlen rs else i) l)))) /\
  index_meta (of_rows c rs) (MOne INone) = Ok (Some (of_rows c rs)).
Proof.
  intros c rs l H. split; [|reflexivity]. rewrite list_of_ints. change (BInts l) with (to_bidx (IList l)). rewrite (batch_pick' c rs (IList l) _ (P_list _ l H)). reflexivity.
Qed.
Example C61_list_of_ints_example :
  index_meta (of_rows false [mkRow "a" true false 5 0; mkRow "b" true true 3 0]) (MSeq false [EItem (IInt 1); EItem (IInt 0)])
  = Ok (Some (of_rows false [mkRow "b" true true 3 0; mkRow "a" true false 5 0])) /\
  index_meta (of_rows false [mkRow "a" true false 5 0; mkRow "b" true true 3 0]) (MSeq true [EItem (IInt 1); EItem (IInt 0)])
  = Ok (Some (of_rows false [mkRow "b" true false 1 0])).
Proof. split; vm_compute; reflexivity. Qed.

(** A two-dimensional mask: as C52. *)
Theorem C61_mask : forall c rs mask T, length mask = length rs -> Forall (fun b => length b = T) mask ->
  Forall (fun r => 1 <= rlen r <= Z.of_nat T) rs -> existsb some_true mask = true ->
  c = false \/ forallb some_true mask = true ->
  index_meta (of_rows c rs) (MMask2 mask T)
  = Ok (Some (of_rows c (map (fun p => mask_row (mask_positions (snd p)) (fst p)) (kept_rows rs mask)))).
Proof. intros. cbn [index_meta]. rewrite mask2d_exact; auto. Qed.
Example C61_mask_example :
  index_meta (of_rows false [mkRow "a" true true 4 0; mkRow "b" true false 2 0]) (MMask2 [[true; false; true; true]; [false; false; false; false]] 4)
  = Ok (Some (of_rows false [mkRow "a" true true 3 0])).
Proof. vm_compute. reflexivity. Qed.

(** Selecting streams and selecting time steps commute, if the time steps are counted from the start and some selected stream
    has data; meta[i, j] is the same again. *)
Theorem C61_commute_partial : forall c rs i j sb, picks (zlen rs) i sb -> absolute j -> nonneg rs -> Exists (fun r => 0 < rlen r) (sel_rows sb rs) ->
  exists rs', index_meta (of_rows c rs) (MSeq true [EItem i; EItem j]) = Ok (Some (of_rows c rs')) /\
  bind (index_batch (of_rows c rs) (to_bidx i)) (fun m => index_length m (to_lidx j)) = Ok (of_rows c rs') /\
  bind (index_length (of_rows c rs) (to_lidx j)) (fun m => index_batch m (to_bidx i)) = Ok (of_rows c rs').
Proof. exact swap. Qed.
Example C61_commute_example :
  let m := of_rows true [mkRow "a" true false 5 7; mkRow "b" false true 3 8; mkRow "c" true true 0 9] in
  bind (index_batch m (BInts [2; 1])) (fun m => index_length m (LSlice (mkSlice (Some 1) (Some 4) None)))
  = Ok (of_rows true [mkRow "c" false false 0 9; mkRow "b" false true 2 8]) /\
  bind (index_length m (LSlice (mkSlice (Some 1) (Some 4) None))) (fun m => index_batch m (BInts [2; 1]))
  = Ok (of_rows true [mkRow "c" false false 0 9; mkRow "b" false true 2 8]).
Proof. split; vm_compute; reflexivity. Qed.

(** They do not commute for negative steps (which count from the longest selected stream), for strides (whose end flags
    depend on it), or if all selected streams are empty. *)
Theorem C61_commute_refuted :
  let m := of_rows false [mkRow "a" true true 5 0; mkRow "b" true true 3 0; mkRow "c" true true 0 0] in
  let both i j := (bind (index_batch m i) (fun m => index_length m j), bind (index_length m j) (fun m => index_batch m i)) in
  both (BInt 1) (LInt (-1)) = (Ok (of_rows false [mkRow "b" false true 1 0]), Ok (of_rows false [mkRow "b" false true 0 0])) /\
  both (BInt 1) (LSlice (mkSlice None None (Some 4)))
  = (Ok (of_rows false [mkRow "b" true false 1 0]), Ok (of_rows false [mkRow "b" true true 1 0])) /\
  both (BInt 2) (LSlice (mkSlice None None None))
  = (Ok (of_rows false [mkRow "c" false false 0 0]), Ok (of_rows false [mkRow "c" true false 0 0])).
Proof. cbv zeta. split; [vm_compute; reflexivity|]. split; vm_compute; reflexivity. Qed.

(** A tuple or list of one or of three or more items that are not all ints gives no metadata and no error. *)
Theorem C61_other_sequences_refuted : forall m tup l, length l <> 2%nat -> Exists (fun e => e_int e = false) l ->
  index_meta m (MSeq tup l) = Ok None.
Proof.
  intros m tup l H E. unfold index_meta.
  assert (forallb e_int l = false) as ->.
  { apply not_true_is_false. intros F. apply Exists_exists in E as (e & He & E). rewrite forallb_forall in F. rewrite (F e He) in E. discriminate. }
  cbn [negb]. destruct l as [|a [|b [|d t]]]; cbn [length] in H; try congruence; try reflexivity.
  - destruct a as [[]| |]; reflexivity.
  - destruct a as [[]| |]; destruct b as [[]| |]; reflexivity.
Qed.
Example C61_other_sequences_refuted_example :
  index_meta (of_rows false [mkRow "a" true true 5 0]) (MSeq true [EItem (ISlice (mkSlice (Some 0) (Some 1) None))]) = Ok None /\
  index_meta (of_rows false [mkRow "a" true true 5 0]) (MSeq true [EItem (IInt 0); EItem (IInt 0); EItem IEll]) = Ok None.
Proof. split; vm_compute; reflexivity. Qed.

(** Tuples of one or of three or more ints, the empty tuple, an Ellipsis, and masks of three or more dimensions are refused. *)
Theorem C61_refused : forall m l, length l <> 2%nat ->
  index_meta m (MSeq true (map (fun k => EItem (IInt k)) l)) = Err TypeError /\ index_meta m (MOne IEll) = Err TypeError /\
  index_meta m MMaskNd = Err ValueError.
Proof.
  intros m l H. split; [|split; reflexivity]. unfold index_meta.
  assert (forallb e_int (map (fun k => EItem (IInt k)) l) = true) as -> by (clear H; induction l; auto). cbn [negb].
  destruct l as [|a [|b [|d t]]]; cbn in *; congruence.
Qed.
Example C61_refused_example : index_meta (of_rows false [mkRow "a" true true 5 0]) (MSeq true [EItem (IInt 0)]) = Err TypeError.
Proof. vm_compute. reflexivity. Qed.

(* ------------------------------------------------------------------ C62 *)

(** For two or more streams repr always succeeds: it lists all ids, or (beyond 80 characters) some first ids and the last one,
    never the same stream twice; if more than one first id is shown, the ids and separators stay below 80 characters
    (a separator is counted as two characters; the last id is shown with its quotes quoted again). *)
Theorem C62_repr : forall rl ids, (forall s, Z.of_nat (String.length s) <= rl s) -> (2 <= length ids)%nat ->
  (zsum (map (fun s => Z.of_nat (String.length s)) ids) <= 80 /\ show_ids rl ids = Ok (All ids)) \/
  (80 < zsum (map (fun s => Z.of_nat (String.length s)) ids) /\
   exists p q z, ids = p ++ q ++ [z] /\ p <> [] /\ show_ids rl ids = Ok (Some_first p z) /\
     ((2 <= length p)%nat -> zsum (map rl p) + rl z + 7 + 2 * (zlen p - 2) < 80)).
Proof. intros rl ids H1 H2. exact (show_ids_many rl H1 ids H2). Qed.
Example C62_repr_example :
  let rl s := Z.of_nat (String.length s) + 2 in
  let w := "0123456789abcdef" in
  show_ids rl ["a"; w; w; w; w; w; w] = Ok (Some_first ["a"; w; w] w) /\ show_ids rl ["a"; w] = Ok (All ["a"; w]).
Proof. cbv zeta. split; vm_compute; reflexivity. Qed.

(** A single stream with an id of more than 80 characters cannot be shown. *)
Theorem C62_single_refuted : forall rl s, 80 < Z.of_nat (String.length s) -> show_ids rl [s] = Err IndexError.
Proof.
  intros rl s H. unfold show_ids, zsum. cbn [map fold_right]. replace (Z.of_nat (String.length s) + 0 >? 80) with true by lia. reflexivity.
Qed.
Example C62_single_refuted_example :
  show_ids (fun s => Z.of_nat (String.length s) + 2)
    ["/home/user/data/LibriSpeech/train-clean-100/103/1240/103-1240-0000-with-a-rather-long-file-name.flac"] = Err IndexError.
Proof. vm_compute. reflexivity. Qed.

(* ---- assumptions *)
Print Assumptions C61_streams.
Print Assumptions C61_pair_partial.
Print Assumptions C61_steps_partial.
Print Assumptions C61_list_of_ints.
Print Assumptions C61_mask.
Print Assumptions C61_commute_partial.
Print Assumptions C61_commute_refuted.
Print Assumptions C61_other_sequences_refuted.
Print Assumptions C61_refused.
Print Assumptions C62_repr.
Print Assumptions C62_single_refuted.

(** Properties of x[...] with a Python list of bool (C92).

    [bool_list_at ix d bs]: the index has the list for dimension d; [getitem x ix] is the same index with a BoolTensor in place of
    the list (C14, C15, C61 say what that gives). *)

From Coq Require Import String List ZArith Bool Lia.
From Verif Require Import Py Meta MetaSpec MetaProofs Named NamedSpec NamedProofs GatherProofs GatherTakeProofs NamedIndexProofs BoolList BoolListSpec BoolListProofs.
Import ListNotations.
Open Scope string_scope.
Open Scope list_scope.
Open Scope Z_scope.

(** In any dimension but batch and length the list is as good as the BoolTensor. *)
Theorem C92_elsewhere : forall (V : Type) (x : @stensor V) bd ld c rs T ix d bs, stream_ok x bd ld c rs T -> bool_list_at ix d bs ->
  d <> bd -> d <> ld -> getitem_bools x ix = getitem x ix.
Proof. intros V x bd ld c rs T ix d bs H Hix. destruct (names_index_sizes _ _ _ _ _ _ H) as (Hb & Hl & _). exact (elsewhere x ix d bs bd ld Hix Hb Hl). Qed.

(** In the batch dimension it never gives what the BoolTensor gives for streams with different ids: a list with a False is
    refused, and after a list of True every stream has the id of the second one. *)
Theorem C92_batch : forall (V : Type) (x y : @stensor V) bd ld c rs T ix bs, stream_ok x bd ld c rs T -> bool_list_at ix bd bs -> bs <> [] ->
  getitem x ix = Ok y ->
  (In false bs -> getitem_bools x ix = Err ValueError) /\
  (bs = [true] -> getitem_bools x ix = Err IndexError) /\
  (forall r0 r rs', rs = r0 :: r :: rs' -> ~ In false bs ->
     getitem_bools x ix = Ok (mkSt (tn y) (names y) (renamed (map (fun _ => rid r) rs) (smeta y)))).
Proof.
  intros V x y bd ld c rs T ix bs H Hix Hn E. destruct (names_index_sizes _ _ _ _ _ _ H) as (Hb & Hl & _).
  assert (N : bd <> ld). { intros ->. destruct H as [_ _ _ HB HL _ _ _ _ _]. rewrite HB in HL. discriminate. }
  destruct (on_batch x ix bs bd ld Hix Hb Hl N) as [(e & A & _)|(t & n & l & A & B)]; [congruence|].
  rewrite A in E. rewrite B. rewrite (so_meta _ _ _ _ _ _ H) in *. unfold index_pair in *.
  assert (HL : length bs = length rs).
  { destruct (Nat.eq_dec (length bs) (length rs)) as [L|L]; [exact L|]. rewrite index_batch_mask_bad in E by exact L. discriminate. }
  rewrite index_batch_mask in E by exact HL. cbn [bind] in E. rewrite batch_bools by assumption.
  split; [|split].
  - intros F. replace (existsb negb bs) with true; [destruct rs as [|r0 [|r rs]]; reflexivity|]. symmetry. apply existsb_exists. exists false. auto.
  - intros ->. destruct rs as [|r0 [|]]; try discriminate. reflexivity.
  - intros r0 r rs' -> F. replace (existsb negb bs) with false.
    2:{ symmetry. apply not_true_is_false. intros X. apply existsb_exists in X. destruct X as ([] & X & Y); [discriminate|]. exact (F X). }
    rewrite masked_true in E by assumption. cbn [bind]. destruct (index_length (of_rows c (r0 :: r :: rs')) l) as [m|] eqn:El; [|discriminate]. cbn [bind] in E.
    injection E as <-. erewrite index_length_renamed; [reflexivity| |exact El]. cbn [of_rows ids]. now rewrite !map_length.
Qed.

(** The same for metadata alone, meta[bs]. *)
Theorem C92_metadata : forall c rs bs, length bs = length rs -> bs <> [] ->
  (In false bs -> index_batch (of_rows c rs) (BBools bs) = Err ValueError) /\
  (bs = [true] -> index_batch (of_rows c rs) (BBools bs) = Err IndexError) /\
  (forall r0 r rs', rs = r0 :: r :: rs' -> ~ In false bs ->
     index_batch (of_rows c rs) (BBools bs) = Ok (renamed (map (fun _ => rid r) rs) (of_rows c rs))).
Proof.
  intros c rs bs HL Hn. rewrite batch_bools by assumption. split; [|split].
  - intros F. replace (existsb negb bs) with true; [destruct rs as [|r0 [|r rs]]; reflexivity|]. symmetry. apply existsb_exists. exists false. auto.
  - intros ->. destruct rs as [|r0 [|]]; try discriminate. reflexivity.
  - intros r0 r rs' -> F. replace (existsb negb bs) with false; [reflexivity|].
    symmetry. apply not_true_is_false. intros X. apply existsb_exists in X. destruct X as ([] & X & Y); [discriminate|]. exact (F X).
Qed.

(** A list of the wrong size is never accepted. *)
Theorem C92_wrong_size : forall (V : Type) (x : @stensor V) bd ld c rs T ix bs, stream_ok x bd ld c rs T -> bool_list_at ix bd bs ->
  length bs <> length rs -> exists e, getitem_bools x ix = Err e.
Proof.
  intros V x bd ld c rs T ix bs H Hix HL. destruct (names_index_sizes _ _ _ _ _ _ H) as (Hb & Hl & _).
  assert (N : bd <> ld). { intros ->. destruct H as [_ _ _ HB HL' _ _ _ _ _]. rewrite HB in HL'. discriminate. }
  destruct (on_batch x ix bs bd ld Hix Hb Hl N) as [(e & _ & A)|(t & n & l & _ & B)]; [eauto|].
  rewrite B. rewrite (so_meta _ _ _ _ _ _ H). unfold index_pair. destruct (index_batch (of_rows c rs) (BBools bs)) as [m|e] eqn:E; [|eexists; reflexivity].
  apply batch_bools_size in E. contradiction.
Qed.

(** So the list of bool does not select like the BoolTensor: for every batch of at least two streams of which the first two have
    different ids, and every list of True, the call succeeds and the first stream has a wrong id. *)
Theorem C92_same_as_mask_refuted : forall (V : Type) (x y : @stensor V) bd ld c r0 r rs T ix bs, stream_ok x bd ld c (r0 :: r :: rs) T ->
  bool_list_at ix bd bs -> bs <> [] -> ~ In false bs -> rid r0 <> rid r -> getitem x ix = Ok y ->
  exists z, getitem_bools x ix = Ok z /\ hd_error (ids (smeta y)) = Some (rid r0) /\ hd_error (ids (smeta z)) = Some (rid r).
Proof.
  intros V x y bd ld c r0 r rs T ix bs H Hix Hn F D E. destruct (C92_batch _ _ _ _ _ _ _ _ _ _ H Hix Hn E) as (_ & _ & A).
  eexists. split; [exact (A _ _ _ eq_refl F)|]. cbn [smeta renamed ids map hd_error]. split; [|reflexivity].
  destruct (names_index_sizes _ _ _ _ _ _ H) as (Hb & Hl & _).
  assert (N : bd <> ld). { intros ->. destruct H as [_ _ _ HB HL' _ _ _ _ _]. rewrite HB in HL'. discriminate. }
  destruct (on_batch x ix bs bd ld Hix Hb Hl N) as [(e & G & _)|(t & n & l & G & _)]; [congruence|].
  rewrite G in E. rewrite (so_meta _ _ _ _ _ _ H) in *. unfold index_pair in *.
  assert (HL : length bs = length (r0 :: r :: rs)).
  { destruct (Nat.eq_dec (length bs) (length (r0 :: r :: rs))) as [L|L]; [exact L|]. rewrite index_batch_mask_bad in E by exact L. discriminate. }
  rewrite index_batch_mask in E by exact HL. cbn [bind] in E. rewrite masked_true in E by assumption.
  destruct (index_length _ l) as [m|] eqn:El; [|discriminate]. cbn [bind] in E. injection E as <-. cbn [smeta].
  apply index_length_ids in El. rewrite El. reflexivity.
Qed.

(** Streams a (5 steps) and b (2 steps, ends) with two features, dimensions B, F, L. *)
Definition two : @stensor Z :=
  mkSt (mkTn [2; 2; 5] (fun ix => fold_left (fun a i => 10 * a + i) ix 0)) [Some "B"; Some "F"; Some "L"]
       (of_rows true [mkRow "a" true false 5 0; mkRow "b" false true 2 3]).
Definition look (y : res (@stensor Z)) : res (list Z * list Z * meta) :=
  match y with Ok y => Ok (shp (tn y), map (at_ (tn y)) [[0; 0; 1]; [size (tn y) 0 - 1; 0; 1]], smeta y) | Err e => Err e end.
Definition every : item := ISlice (mkSlice None None None).
Example C92_example :
  look (getitem two (Single (IMask [true; true]))) = Ok ([2; 2; 5], [1; 101], of_rows true [mkRow "a" true false 5 0; mkRow "b" false true 2 3]) /\
  look (getitem_bools two (Single (IMask [true; true]))) = Ok ([2; 2; 5], [1; 101], of_rows true [mkRow "b" true false 5 0; mkRow "b" false true 2 3]) /\
  look (getitem_bools two (Single (IMask [false; true]))) = Err ValueError /\
  look (getitem two (Single (IMask [false; true]))) = Ok ([1; 2; 5], [101; 101], of_rows true [mkRow "b" false true 2 3]) /\
  look (getitem_bools two (Tuple [every; IMask [false; true]])) = Ok ([2; 1; 5], [11; 111], of_rows true [mkRow "a" true false 5 0; mkRow "b" false true 2 3]) /\
  look (getitem_bools two (Tuple [IMask [true; true]; every; ISlice (mkSlice (Some 1) (Some 3) None)]))
    = Ok ([2; 2; 2], [2; 102], of_rows true [mkRow "b" false false 2 0; mkRow "b" false true 1 3]) /\
  look (getitem_bools two (Single (IMask [true; true; true]))) = Err IndexError.
Proof. split; [|split; [|split; [|split; [|split; [|split]]]]]; vm_compute; reflexivity. Qed.
Lemma distinct_names l : names_dup l = false -> names_distinct l.
Proof. apply names_dup_false. Qed.
(** The hypotheses of C92_same_as_mask_refuted hold for it. *)
Example C92_example_hypotheses : stream_ok two 0 2 true [mkRow "a" true false 5 0; mkRow "b" false true 2 3] 5 /\ bool_list_at (Single (IMask [true; true])) 0 [true; true] /\
  exists y, getitem two (Single (IMask [true; true])) = Ok y.
Proof.
  split; [|split; [constructor|]].
  - constructor; try reflexivity; try (apply distinct_names; vm_compute; reflexivity); (repeat constructor; cbn; lia).
  - assert (G : match getitem two (Single (IMask [true; true])) with Ok _ => True | Err _ => False end) by (vm_compute; auto).
    destruct (getitem two (Single (IMask [true; true]))) as [y|e]; [eauto|destruct G].
Qed.

(* ---- assumptions *)
Print Assumptions C92_elsewhere.
Print Assumptions C92_batch.
Print Assumptions C92_metadata.
Print Assumptions C92_wrong_size.
Print Assumptions C92_same_as_mask_refuted.

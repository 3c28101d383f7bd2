(** Proofs: the example program on tensors does what the one on lists of columns does. *)

From Coq Require Import String List ZArith Bool Lia.
From Coq Require Import ZifyBool.
From Verif Require Import Py Meta MetaSpec Named NamedSpec Pad Conv ConvSpec ConvProofs Stack StackSpec ConvTensor ConvTensorSpec ConvTensorProofs
  ConvTensorRunProofs ConvNet ConvNetSpec ConvNetProofs Ragged RaggedSpec RaggedProofs PadTensorProofs Collector AlignTo Program ProgramTensor ProgramTensorSpec.
From Verif Require Import Pipeline.
Import ListNotations.
Open Scope Z_scope.

Section ProgramTensorProofs.
Context {V : Type} (A : arith V).
Notation tensor := (@tensor V).
Notation stensor := (@stensor V).

Lemma agree_mapM {X Y X' Y'} (R : X -> Y -> Prop) (R' : X' -> Y' -> Prop) f g : (forall x y, R x y -> agree R' (f x) (g y)) ->
  forall xs ys, Forall2 R xs ys -> agree (Forall2 R') (mapM f xs) (mapM g ys).
Proof.
  intros H xs ys F. unfold mapM. induction F as [|x y xs ys Hxy F IH]; cbn [map seqM]; [constructor|].
  eapply agree_bind; [apply (H x y Hxy)|]. intros a b Hab. eapply agree_bind; [exact IH|]. intros l l' HL. constructor; assumption.
Qed.

Lemma agree_impl {X Y} (R R' : X -> Y -> Prop) r r' : (forall a b, R a b -> R' a b) -> agree R r r' -> agree R' r r'.
Proof. destruct r, r'; cbn; auto. Qed.

(* ---- columns of a chunk *)

Lemma cols_map (cols : list (list V)) : cols = map (fun p => nth p cols []) (seq 0 (length cols)).
Proof. apply list_as_map. Qed.

Lemma take_columns c (t : tensor) cols ps : holds_columns c t cols -> Forall (fun p => (p < length cols)%nat) ps ->
  holds_columns c (t_take t 1 (map Z.of_nat ps)) (map (fun p => nth p cols []) ps).
Proof.
  intros HC HP. apply (columns_get A) in HC. destruct HC as (H1 & H2 & H3). apply (columns_get A). split; [|split].
  - unfold t_take. cbn [shp]. rewrite H1. unfold zlen. rewrite !map_length. reflexivity.
  - rewrite Forall_map. eapply Forall_impl; [|exact HP]. cbv beta. intros p Hp. rewrite Forall_forall in H2. apply H2. now apply nth_In.
  - intros p j Hp Hj. rewrite map_length in Hp. unfold t_take. cbn [at_ nth]. unfold list_set. cbn [firstn skipn app].
    rewrite Nat2Z.id. rewrite (nth_indep _ 0 (Z.of_nat 0)) by (rewrite map_length; lia). rewrite map_nth.
    assert (HI : In (nth p ps 0%nat) ps) by (now apply nth_In). rewrite Forall_forall in HP. pose proof (HP _ HI) as Hlt.
    rewrite H3 by assumption. unfold getc. rewrite (nth_map_lt (fun p => nth p cols []) ps p [] 0%nat) by assumption. reflexivity.
Qed.

Lemma sections_map {X Y} (f : X -> Y) secs : forall l, take_sections secs (map f l) = map (map f) (take_sections secs l).
Proof. induction secs as [|k secs IH]; intros l; cbn [take_sections map]; [reflexivity|]. now rewrite firstn_map, skipn_map, IH. Qed.

Lemma sections_in {X} secs : forall (l : list X) ps p, In ps (take_sections secs l) -> In p ps -> In p l.
Proof.
  induction secs as [|k secs IH]; intros l ps p H Hp; cbn [take_sections In] in H; [contradiction|]. destruct H as [<-|H].
  - rewrite <- (firstn_skipn (Z.to_nat k) l). apply in_or_app. now left.
  - rewrite <- (firstn_skipn (Z.to_nat k) l). apply in_or_app. right. eapply IH; eassumption.
Qed.

Lemma zip_map2 {X Y X' Y'} (R : X -> Y -> Prop) (P : X' -> Y' -> Prop) xs ys : Forall2 R xs ys -> forall us vs, Forall2 P us vs ->
  Forall2 (fun a b => R (fst a) (fst b) /\ P (snd a) (snd b)) (zip xs us) (zip ys vs).
Proof.
  induction 1 as [|x y xs ys Hxy F IH]; intros us vs HU; [destruct us, vs; constructor|].
  destruct HU as [|u v us vs Huv HU]; cbn [zip]; constructor; [split; assumption|]. now apply IH.
Qed.

Lemma Forall2_refl_eq {X} (l : list X) : Forall2 eq l l.
Proof. induction l; constructor; auto. Qed.

Lemma split_agree c f (x : stensor) s secs : holds_single c f x s ->
  agree (Forall2 (holds_single c f)) (split x (SList secs) 1) (split_single s (SList secs)).
Proof.
  intros [HD HN HM]. pose proof HD as HD0. apply (columns_get A) in HD. destruct HD as (H1 & H2 & H3).
  unfold split, split_single, ndim. rewrite H1, HN. cbn [length]. change (norm_dim 2 1) with (@Ok nat 1%nat). cbn [bind].
  change (name_at [f; Some "L"%string] 1) with (@Ok dname (Some "L"%string)). cbn [bind].
  change (dname_eqb (Some "L"%string) (Some LENGTH)) with true. cbn iota.
  unfold torch_split, tensor_split, tensor_split_list, size, zlen. rewrite H1. cbn [nth]. unfold dim_positions. rewrite !map_length, seq_length, Nat2Z.id.
  destruct (forallb (fun k => 0 <=? k) secs && (zsum secs =? Z.of_nat (length (sd s)))); [|reflexivity]. cbn [bind].
  rewrite HM. destruct (split_length (sm s) (SList secs)) as [ms|e]; [|reflexivity]. cbn [bind agree].
  rewrite sections_map, map_map. rewrite (cols_map (sd s)) at 2. rewrite sections_map.
  assert (F : Forall2 (fun t cs => holds_columns c t cs) (map (fun ps => t_take (tn x) 1 (map Z.of_nat ps)) (take_sections secs (seq 0 (length (sd s)))))
                 (map (map (fun p => nth p (sd s) [])) (take_sections secs (seq 0 (length (sd s)))))).
  { assert (HI : forall ps p, In ps (take_sections secs (seq 0 (length (sd s)))) -> In p ps -> (p < length (sd s))%nat).
    { intros ps p Hps Hp. pose proof (sections_in _ _ _ _ Hps Hp) as Hs. apply in_seq in Hs. lia. }
    revert HI. generalize (take_sections secs (seq 0 (length (sd s)))). intros l HI. induction l as [|ps l IH]; cbn [map]; constructor.
    - apply take_columns; [exact HD0|]. rewrite Forall_forall. intros p Hp. apply (HI ps); [now left|exact Hp].
    - apply IH. intros ps' p Hps Hp. apply (HI ps'); [now right|exact Hp]. }
  pose proof (zip_map2 _ _ _ _ F _ _ (Forall2_refl_eq ms)) as F2. revert F2.
  generalize (zip (map (fun ps => t_take (tn x) 1 (map Z.of_nat ps)) (take_sections secs (seq 0 (length (sd s))))) ms).
  generalize (zip (map (map (fun p => nth p (sd s) [])) (take_sections secs (seq 0 (length (sd s))))) ms).
  intros l' l F2. induction F2 as [|a b l l' (Ha & Hb) F2 IH]; cbn [map]; constructor; [|exact IH].
  constructor; cbn [tn names smeta sd sm]; [exact Ha|reflexivity|exact Hb].
Qed.

(* ---- unpad_sequence *)

Lemma select_row c w (t : tensor) rows i : holds_data c w t rows -> (i < length rows)%nat ->
  holds_columns c (t_select t 0 (Z.of_nat i)) (nth i rows []).
Proof.
  intros HD Hi. apply (holds_get A) in HD. destruct HD as (H1 & H2 & H3). apply (columns_get A).
  unfold sized in H2. rewrite Forall_forall in H2. destruct (H2 (nth i rows []) ltac:(now apply nth_In)) as (L1 & L2).
  split; [|split; [exact L2|]].
  - unfold t_select, remove_nth. cbn [shp]. rewrite H1, L1. reflexivity.
  - intros p j Hp Hj. unfold t_select, insert_nth. cbn [at_ firstn skipn app]. rewrite H3 by lia. reflexivity.
Qed.

Lemma unbind_agree c f (x : stensor) b : channel_name f -> holds c f x b ->
  agree (Forall2 (holds_single c f)) (unbind x 0) (unbind_rows b).
Proof.
  intros (Hf1 & Hf2) [HD HN HM]. pose proof HD as HD0. apply (holds_get A) in HD. destruct HD as (H1 & H2 & H3).
  unfold unbind, unbind_rows, ndim. rewrite H1, HN. cbn [length]. change (norm_dim 3 0) with (@Ok nat 0%nat). cbn [bind].
  change (name_at [Some "B"%string; f; Some "L"%string] 0) with (@Ok dname (Some "B"%string)). cbn [bind].
  change (dname_eqb (Some "B"%string) (Some LENGTH)) with false. change (dname_eqb (Some "B"%string) (Some BATCH)) with true. cbn iota.
  rewrite HM. destruct (unbind_batch (bm b)) as [ms|e]; [|reflexivity]. cbn [bind].
  unfold torch_unbind, size. rewrite H1. cbn [nth]. unfold dim_positions. rewrite !map_length, seq_length, Nat2Z.id.
  destruct (Nat.eqb (length (bd b)) (length ms)); [|reflexivity]. cbn [agree].
  change (remove_nth 0 [Some "B"%string; f; Some "L"%string]) with [f; Some "L"%string].
  rewrite map_map.
  assert (F : Forall2 (fun t cs => holds_columns c t cs) (map (fun i => t_select (tn x) 0 (Z.of_nat i)) (seq 0 (length (bd b)))) (bd b)).
  { rewrite (list_as_map (bd b) []) at 2. assert (HI : forall i, In i (seq 0 (length (bd b))) -> (i < length (bd b))%nat) by (intros i Hi; apply in_seq in Hi; lia).
    revert HI. generalize (seq 0 (length (bd b))). intros l HI. induction l as [|i l IH]; cbn [map]; constructor.
    - eapply select_row; [exact HD0|]. apply HI. now left.
    - apply IH. intros i' Hi'. apply HI. now right. }
  pose proof (zip_map2 _ _ _ _ F _ _ (Forall2_refl_eq ms)) as F2. revert F2.
  generalize (zip (map (fun i => t_select (tn x) 0 (Z.of_nat i)) (seq 0 (length (bd b)))) ms). generalize (zip (bd b) ms).
  intros l' l F2. induction F2 as [|a a' l l' (Ha & Hb) F2 IH]; cbn [map]; constructor; [|exact IH].
  constructor; cbn [tn names smeta sd sm]; [exact Ha|reflexivity|exact Hb].
Qed.

Lemma narrow_agree c f (x : stensor) s n : holds_single c f x s ->
  agree (holds_single c f) (narrow x 1 0 n) (narrow_single s 0 n).
Proof.
  intros [HD HN HM]. pose proof HD as HD0. apply (columns_get A) in HD. destruct HD as (H1 & H2 & H3).
  unfold narrow, narrow_single, ndim. rewrite H1, HN. cbn [length]. change (norm_dim 2 1) with (@Ok nat 1%nat). cbn [bind].
  unfold torch_narrow, size, zlen. rewrite H1. cbn [nth].
  change (0 <? 0) with false. cbn iota.
  destruct (n <? 0) eqn:En; cbn [orb].
  { replace (0 <? 0) with false by reflexivity. destruct (Z.of_nat (length (sd s)) <? 0) eqn:E; [lia|]. reflexivity. }
  destruct (0 <? - Z.of_nat (length (sd s))) eqn:E1; [lia|]. destruct (Z.of_nat (length (sd s)) <? 0) eqn:E2; [lia|]. cbn [orb].
  change (0 <? 0) with false. cbn iota.
  destruct (Z.of_nat (length (sd s)) <? 0 + n) eqn:E3; [reflexivity|]. cbn [bind].
  change (name_at [f; Some "L"%string] 1) with (@Ok dname (Some "L"%string)). cbn [bind].
  change (dname_eqb (Some "L"%string) (Some BATCH)) with false. change (dname_eqb (Some "L"%string) (Some LENGTH)) with true. cbn iota.
  rewrite HM. destruct (index_pair (sm s) _ _) as [m|e]; [|reflexivity]. cbn [bind agree]. cbv zeta.
  constructor; cbn [tn names smeta sd sm]; [|reflexivity|reflexivity].
  change (Z.to_nat 0) with 0%nat. rewrite skipn_O.
  assert (E : map (fun i => 0 + i) (dim_positions n) = map Z.of_nat (firstn (Z.to_nat n) (seq 0 (length (sd s))))).
  { unfold dim_positions. rewrite map_map. rewrite <- (seq_length (length (sd s)) 0) in E3 |- *.
    replace (firstn (Z.to_nat n) (seq 0 (length (seq 0 (length (sd s)))))) with (seq 0 (Z.to_nat n)).
    - apply map_ext. intros a. lia.
    - rewrite seq_length in *. replace (length (sd s)) with (Z.to_nat n + (length (sd s) - Z.to_nat n))%nat by lia. rewrite seq_app, firstn_app.
      rewrite seq_length, Nat.sub_diag. cbn [firstn]. rewrite app_nil_r. now rewrite firstn_all2 by (rewrite seq_length; lia). }
  rewrite E. rewrite (cols_map (sd s)) at 2. rewrite firstn_map. apply take_columns; [exact HD0|].
  rewrite Forall_forall. intros p Hp. assert (In p (seq 0 (length (sd s)))) as Hs.
  { rewrite <- (firstn_skipn (Z.to_nat n) (seq 0 _)). apply in_or_app. now left. }
  apply in_seq in Hs. lia.
Qed.

Lemma unpad_agree c f (x : stensor) b : channel_name f -> holds c f x b ->
  agree (Forall2 (holds_single c f)) (unpad_sequence_t x) (unpad_sequence b).
Proof.
  intros Hf HX. pose proof (unbind_agree c f x b Hf HX) as HU. destruct HX as [HD HN HM], Hf as (Hf1 & Hf2).
  unfold unpad_sequence_t, unpad_sequence. rewrite HN.
  assert (E1 : names_index (Some BATCH) [Some "B"%string; f; Some "L"%string] = Ok 0%nat) by reflexivity.
  assert (E2 : names_index (Some LENGTH) [Some "B"%string; f; Some "L"%string] = Ok 2%nat).
  { cbn [names_index]. change (dname_eqb (Some "B"%string) (Some LENGTH)) with false. cbn iota.
    destruct (dname_eqb f (Some LENGTH)) eqn:E; [|reflexivity]. exfalso. destruct f as [f|]; [|discriminate].
    cbn [dname_eqb] in E. apply String.eqb_eq in E. subst. now apply Hf2. }
  rewrite E1, E2. cbn [bind]. change (Nat.ltb 0 2) with true. cbn iota. change (Z.of_nat 0) with 0. change (Z.of_nat (pred 2)) with 1.
  eapply agree_bind; [exact HU|]. intros ys ss HY. refine (agree_mapM _ _ _ _ _ _ _ HY).
  intros y s HS. destruct HS as [a1 a2 a3]. rewrite a3. destruct (the_length (sm s)) as [n|e]; [|reflexivity]. cbn [bind].
  apply narrow_agree. constructor; assumption.
Qed.

End ProgramTensorProofs.

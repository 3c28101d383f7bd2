(** Proofs: the tensor level of convolutions agrees with the model on columns. *)

From Coq Require Import String List ZArith Bool Lia.
From Coq Require Import ZifyBool.
From Verif Require Import Py Meta MetaSpec Named NamedSpec Pad Conv ConvTensor ConvTensorSpec.
Import ListNotations.
Open Scope Z_scope.

Section ConvTensorProofs.
Context {V : Type} (A : arith V).

(** Element of rows of columns. *)
Definition get (rows : list (list (list V))) (i p j : nat) : V := nth j (nth p (nth i rows []) []) (zero A).

Lemma holds_get c w t rows : holds_data c w t rows <->
  shp t = [Z.of_nat (length rows); Z.of_nat c; Z.of_nat w] /\ sized c w rows /\
  (forall i p j, (i < length rows)%nat -> (p < w)%nat -> (j < c)%nat -> at_ t [Z.of_nat i; Z.of_nat j; Z.of_nat p] = get rows i p j).
Proof.
  unfold holds_data, sized, get. split; intros (H1 & H2 & H3); (split; [exact H1|split; [exact H2|]]).
  - intros i p j Hi Hp Hj.
    destruct (nth_error rows i) as [row|] eqn:Er; [|apply nth_error_None in Er; lia].
    assert (Hr := nth_error_In _ _ Er). rewrite Forall_forall in H2. destruct (H2 _ Hr) as (L1 & L2).
    destruct (nth_error row p) as [col|] eqn:Ec; [|apply nth_error_None in Ec; lia].
    assert (Hc := nth_error_In _ _ Ec). rewrite Forall_forall in L2. pose proof (L2 _ Hc) as L3.
    destruct (nth_error col j) as [v|] eqn:Ev; [|apply nth_error_None in Ev; lia].
    rewrite (H3 _ _ _ _ _ _ Er Ec Ev). rewrite (nth_error_nth _ _ _ Er), (nth_error_nth _ _ _ Ec), (nth_error_nth _ _ _ Ev). reflexivity.
  - intros i row p col j v Er Ec Ev.
    assert (Hr := nth_error_In _ _ Er). rewrite Forall_forall in H2. destruct (H2 _ Hr) as (L1 & L2).
    assert (Hc := nth_error_In _ _ Ec). rewrite Forall_forall in L2. pose proof (L2 _ Hc) as L3.
    assert (i < length rows)%nat by (apply nth_error_Some; congruence).
    assert (p < length row)%nat by (apply nth_error_Some; congruence).
    assert (j < length col)%nat by (apply nth_error_Some; congruence).
    rewrite H3 by lia. rewrite (nth_error_nth _ _ _ Er), (nth_error_nth _ _ _ Ec), (nth_error_nth _ _ _ Ev). reflexivity.
Qed.

Definition getc (cols : list (list V)) (p j : nat) : V := nth j (nth p cols []) (zero A).

Lemma columns_get c t cols : holds_columns c t cols <->
  shp t = [Z.of_nat c; Z.of_nat (length cols)] /\ Forall (fun col => length col = c) cols /\
  (forall p j, (p < length cols)%nat -> (j < c)%nat -> at_ t [Z.of_nat j; Z.of_nat p] = getc cols p j).
Proof.
  unfold holds_columns, getc. split; intros (H1 & H2 & H3); (split; [exact H1|split; [exact H2|]]).
  - intros p j Hp Hj.
    destruct (nth_error cols p) as [col|] eqn:Ec; [|apply nth_error_None in Ec; lia].
    assert (Hc := nth_error_In _ _ Ec). rewrite Forall_forall in H2. pose proof (H2 _ Hc) as L3.
    destruct (nth_error col j) as [v|] eqn:Ev; [|apply nth_error_None in Ev; lia].
    rewrite (H3 _ _ _ _ Ec Ev). rewrite (nth_error_nth _ _ _ Ec), (nth_error_nth _ _ _ Ev). reflexivity.
  - intros p col j v Ec Ev.
    assert (Hc := nth_error_In _ _ Ec). rewrite Forall_forall in H2. pose proof (H2 _ Hc) as L3.
    assert (p < length cols)%nat by (apply nth_error_Some; congruence).
    assert (j < length col)%nat by (apply nth_error_Some; congruence).
    rewrite H3 by lia. rewrite (nth_error_nth _ _ _ Ec), (nth_error_nth _ _ _ Ev). reflexivity.
Qed.

(** Results agree: both fail with the same error, or related values. *)
Definition agree {X Y} (R : X -> Y -> Prop) (r : res X) (r' : res Y) : Prop :=
  match r, r' with Ok a, Ok b => R a b | Err e, Err e' => e = e' | _, _ => False end.

Lemma agree_bind {X Y X' Y'} (R : X -> Y -> Prop) (R' : X' -> Y' -> Prop) r r' f f' :
  agree R r r' -> (forall a b, R a b -> agree R' (f a) (f' b)) -> agree R' (do x <- r; f x) (do x <- r'; f' x).
Proof. destruct r, r'; cbn; try contradiction; auto. Qed.

(* ---- rolling *)

Lemma length_roll {X} p (r : list X) : length (roll p r) = length r.
Proof.
  unfold roll. destruct r as [|a r]; [cbn; destruct (p mod 0)%nat; reflexivity|].
  rewrite app_length, skipn_length, firstn_length. assert (p mod length (a :: r) < length (a :: r))%nat by (apply Nat.mod_upper_bound; discriminate). lia.
Qed.

Lemma In_roll {X} p (r : list X) x : In x (roll p r) -> In x r.
Proof.
  unfold roll. rewrite in_app_iff. intros [H|H].
  - rewrite <- (firstn_skipn (length r - p mod length r) r). apply in_app_iff. now right.
  - rewrite <- (firstn_skipn (length r - p mod length r) r). apply in_app_iff. now left.
Qed.

Lemma nth_firstn' {X} (l : list X) n i d : (i < n)%nat -> nth i (firstn n l) d = nth i l d.
Proof. revert n i. induction l as [|a l IH]; intros [|n] [|i] H; cbn; try lia; auto. apply IH. lia. Qed.
Lemma nth_skipn' {X} (l : list X) n i d : nth i (skipn n l) d = nth (n + i) l d.
Proof. revert l. induction n as [|n IH]; intros [|a l]; cbn; auto. destruct i; reflexivity. Qed.

Lemma nth_roll {X} p (r : list X) i d : (i < length r)%nat ->
  nth i (roll p r) d = nth (Z.to_nat ((Z.of_nat i - Z.of_nat p) mod Z.of_nat (length r))) r d.
Proof.
  intros Hi. unfold roll. set (n := length r) in *. set (k := (p mod n)%nat).
  assert (Hk : (k < n)%nat) by (apply Nat.mod_upper_bound; lia).
  assert (E : (Z.of_nat i - Z.of_nat p) mod Z.of_nat n = (Z.of_nat i - Z.of_nat k) mod Z.of_nat n).
  { unfold k. rewrite Nat2Z.inj_mod. rewrite Zminus_mod_idemp_r. reflexivity. }
  rewrite E. destruct (Nat.lt_ge_cases i k) as [L|L].
  - rewrite app_nth1 by (rewrite skipn_length; fold n; lia). rewrite nth_skipn'. f_equal.
    assert (E2 : (Z.of_nat i - Z.of_nat k) mod Z.of_nat n = Z.of_nat i - Z.of_nat k + Z.of_nat n).
    { symmetry. apply Z.mod_unique with (q := -1); lia. }
    rewrite E2. lia.
  - rewrite app_nth2 by (rewrite skipn_length; fold n; lia). rewrite skipn_length. fold n.
    rewrite Z.mod_small by lia. rewrite nth_firstn' by lia. f_equal. lia.
Qed.

Lemma length_zip {X Y} (a : list X) : forall b : list Y, length a = length b -> length (zip a b) = length a.
Proof. induction a as [|x a IH]; intros [|y b] H; cbn in *; try lia. rewrite IH; lia. Qed.

Lemma nth_zip {X Y} (a : list X) : forall (b : list Y) i da db, length a = length b ->
  nth i (zip a b) (da, db) = (nth i a da, nth i b db).
Proof. induction a as [|x a IH]; intros [|y b] [|i] da db H; cbn in *; try lia; auto. Qed.

Lemma In_zip {X Y} (a : list X) : forall (b : list Y) x y, In (x, y) (zip a b) -> In x a /\ In y b.
Proof. induction a as [|u a IH]; intros [|v b] x y H; cbn in H; try contradiction. destruct H as [H|H]; [inversion H; subst; cbn; auto|]. destruct (IH _ _ _ H). cbn; auto. Qed.

Lemma nth_map_lt {X Y} (f : X -> Y) l i d d' : (i < length l)%nat -> nth i (map f l) d = f (nth i l d').
Proof. intros H. rewrite nth_indep with (d' := f d') by (now rewrite map_length). apply map_nth. Qed.

Lemma roll_rows_ok c w t rows s p : holds_data c w t rows -> length s = length rows ->
  exists t', roll_rows t s (Z.of_nat p) = Ok t' /\
    holds_data c w t' (map (fun q : bool * list (list V) => if fst q then roll p (snd q) else snd q) (zip s rows)).
Proof.
  rewrite holds_get. intros (H1 & H2 & H3) Hs. unfold roll_rows, ndim, size. rewrite H1. cbn [length Nat.eqb orb nth].
  replace (zlen s =? Z.of_nat (length rows)) with true by (unfold zlen; lia). cbn [negb]. eexists. split; [reflexivity|].
  apply holds_get. cbn [shp at_]. rewrite map_length, length_zip by exact Hs. rewrite Hs. split; [reflexivity|]. split.
  - unfold sized in *. rewrite Forall_forall in *. intros r Hr. apply in_map_iff in Hr. destruct Hr as ((b & r0) & <- & Hin).
    apply In_zip in Hin. destruct Hin as (_ & Hin). destruct (H2 _ Hin) as (L1 & L2). cbn [fst snd]. destruct b; [|auto].
    split; [now rewrite length_roll|]. rewrite Forall_forall in *. intros col Hc. apply L2. eapply In_roll; eauto.
  - intros i q j Hi Hq Hj. cbn [nth pred length list_set]. rewrite Nat2Z.id. unfold get at 1.
    rewrite nth_map_lt with (d' := (false, [])) by (rewrite length_zip; lia). rewrite nth_zip by exact Hs. cbn [fst snd].
    destruct (nth i s false) eqn:Eb; [|now rewrite H3].
    assert (Lr : length (nth i rows []) = w). { unfold sized in H2. rewrite Forall_forall in H2. apply H2. apply nth_In. exact Hi. }
    rewrite nth_roll by lia. rewrite Lr.
    assert (0 <= (Z.of_nat q - Z.of_nat p) mod Z.of_nat w < Z.of_nat w) by (apply Z.mod_pos_bound; lia).
    rewrite <- (Z2Nat.id ((Z.of_nat q - Z.of_nat p) mod Z.of_nat w)) at 1 by lia. rewrite H3 by lia. reflexivity.
Qed.

(* ---- padding *)

Definition padcols (c l r : nat) (row : list (list V)) : list (list V) := repeat (repeat (zero A) c) l ++ row ++ repeat (repeat (zero A) c) r.

Lemma nth_nothing {X} i (d : X) : nth i [] d = d.
Proof. destruct i; reflexivity. Qed.

Lemma nth_repeat_zero c j : nth j (repeat (zero A) c) (zero A) = zero A.
Proof. apply nth_repeat. Qed.

Lemma getc_padcols c l r row p j : getc (padcols c l r row) p j = if (l <=? p)%nat && (p <? l + length row)%nat then getc row (p - l) j else zero A.
Proof.
  unfold padcols, getc. destruct (Nat.lt_ge_cases p l) as [H|H].
  - rewrite app_nth1 by (rewrite repeat_length; lia). replace (l <=? p)%nat with false by lia. cbn [andb].
    rewrite nth_indep with (d' := repeat (zero A) c) by (rewrite repeat_length; lia). rewrite nth_repeat. apply nth_repeat_zero.
  - rewrite app_nth2 by (rewrite repeat_length; lia). rewrite repeat_length. replace (l <=? p)%nat with true by lia. cbn [andb].
    destruct (Nat.ltb_spec p (l + length row)) as [Hl|Hl].
    + rewrite app_nth1 by lia. reflexivity.
    + rewrite app_nth2 by lia. destruct (Nat.lt_ge_cases (p - l - length row) r) as [Hr|Hr].
      * rewrite nth_indep with (d' := repeat (zero A) c) by (rewrite repeat_length; lia). rewrite nth_repeat. apply nth_repeat_zero.
      * rewrite (nth_overflow (repeat (repeat (zero A) c) r)) by (rewrite repeat_length; lia). apply nth_nothing.
Qed.

Lemma pad_last_ok c w t rows l r : holds_data c w t rows ->
  holds_data c (l + w + r) (pad_last A t (Z.of_nat l) (Z.of_nat r)) (map (padcols c l r) rows).
Proof.
  rewrite !holds_get. intros (H1 & H2 & H3). unfold pad_last, ndim, size. rewrite H1. cbn [length pred nth list_set shp at_].
  rewrite map_length. split; [f_equal; f_equal; f_equal; lia|]. split.
  - unfold sized in *. rewrite Forall_forall in *. intros row Hr. apply in_map_iff in Hr. destruct Hr as (r0 & <- & Hin).
    destruct (H2 _ Hin) as (L1 & L2). unfold padcols. rewrite !app_length, !repeat_length. split; [lia|].
    rewrite !Forall_app. repeat split; auto; apply Forall_forall; intros col Hc; apply repeat_spec in Hc; subst; apply repeat_length.
  - intros i p j Hi Hp Hj. unfold get at 1. rewrite nth_map_lt with (d' := []) by exact Hi.
    change (nth j (nth p (padcols c l r (nth i rows [])) []) (zero A)) with (getc (padcols c l r (nth i rows [])) p j).
    rewrite getc_padcols.
    assert (Lr : length (nth i rows []) = w). { unfold sized in H2. rewrite Forall_forall in H2. apply H2. apply nth_In. exact Hi. }
    rewrite Lr. replace ((Z.of_nat l <=? Z.of_nat p) && (Z.of_nat p <? Z.of_nat l + Z.of_nat w)) with ((l <=? p)%nat && (p <? l + w)%nat) by lia.
    destruct ((l <=? p)%nat && (p <? l + w)%nat) eqn:E; [|reflexivity].
    replace (Z.of_nat p - Z.of_nat l) with (Z.of_nat (p - l)) by lia. rewrite H3 by lia. reflexivity.
Qed.


Lemma pad_input_ok (C : conv_cfg (list V)) c m w t rows : zin C = repeat (zero A) c -> holds_data c w t rows -> length (sos m) = length rows ->
  agree (fun t' q => holds_data c (fst q) t' (snd q) /\ length (snd q) = length rows) (pad_input A (Z.of_nat (padn C)) m t) (apply_padding C m w rows).
Proof.
  intros Hz HD Hs. unfold pad_input, apply_padding. apply agree_bind with (R := eq); [destruct (max_length m); reflexivity|].
  intros mx ? <-. assert (Esh := proj1 HD). assert (En : ndim t = 3%nat) by (unfold ndim; rewrite Esh; reflexivity). rewrite En. cbn [Nat.eqb pred].
  assert (Ew : size t 2 = Z.of_nat w) by (unfold size; rewrite Esh; reflexivity). rewrite Ew. cbv zeta.
  apply agree_bind with (R := fun t' q => holds_data c (fst q) t' (snd q) /\ length (snd q) = length rows).
  - destruct (0 <? mx - Z.of_nat w) eqn:E1; [|split; [exact HD|reflexivity]]. set (a := Z.to_nat (mx - Z.of_nat w)).
    assert (Ea : mx - Z.of_nat w = Z.of_nat a) by lia. destruct (all_starting m).
    + destruct (Z.of_nat (padn C) <=? mx - Z.of_nat w) eqn:E2; [|reflexivity]. cbn [agree fst snd]. split; [|now rewrite map_length].
      replace (mx - Z.of_nat w - Z.of_nat (padn C)) with (Z.of_nat (a - padn C)) by lia.
      replace (w + a)%nat with (padn C + w + (a - padn C))%nat by lia. rewrite Hz. apply pad_last_ok. exact HD.
    + cbn [agree fst snd]. split; [|now rewrite map_length]. rewrite Ea. replace (w + a)%nat with (0 + w + a)%nat by lia.
      rewrite Hz. apply (pad_last_ok c w t rows 0 a). exact HD.
  - intros t1 (w1, rows1) (HD1 & L1). cbn [fst snd] in HD1, L1. destruct (any_starting m && negb (all_starting m)); [|split; assumption].
    destruct (roll_rows_ok c w1 t1 rows1 (sos m) (padn C) HD1 ltac:(lia)) as (t' & -> & H). cbn [agree fst snd]. split; [exact H|].
    rewrite map_length, length_zip by lia. lia.
Qed.

(* ---- slices *)

Lemma getitem_map {X Y} (f : X -> Y) l i : py_getitem (map f l) i = do a <- py_getitem l i; Ok (f a).
Proof.
  unfold py_getitem, zlen. rewrite map_length. destruct (_ <? 0); [reflexivity|]. rewrite nth_error_map. destruct (nth_error l _); reflexivity.
Qed.

Lemma gather_map {X Y} (f : X -> Y) l is : py_gather (map f l) is = do r <- py_gather l is; Ok (map f r).
Proof.
  unfold py_gather, mapM. induction is as [|i is IH]; [reflexivity|]. cbn [map seqM]. rewrite getitem_map.
  destruct (py_getitem l i) as [a|e]; cbn; [|reflexivity]. rewrite IH. destruct (seqM (map (py_getitem l) is)); reflexivity.
Qed.

Lemma slice_map {X Y} (f : X -> Y) l s : tensor_slice (map f l) s = do r <- tensor_slice l s; Ok (map f r).
Proof.
  assert (E : list_slice (map f l) s = do r <- list_slice l s; Ok (map f r)).
  { unfold list_slice. unfold zlen. rewrite map_length. destruct (slice_indices _ _) as [((a, b), k)|e]; cbn; [|reflexivity]. apply gather_map. }
  unfold tensor_slice. destruct (sl_step s) as [k|]; [|exact E]. destruct (k <=? 0); [reflexivity|exact E].
Qed.

Lemma gather_in {X} (l : list X) is r : py_gather l is = Ok r -> forall x, In x r -> In x l.
Proof.
  unfold py_gather, mapM. revert r. induction is as [|i is IH]; cbn [map seqM]; intros r H x Hx.
  - inversion H; subst. contradiction.
  - destruct (py_getitem l i) as [a|e] eqn:Ea; cbn in H; [|discriminate]. destruct (seqM _) as [r'|e]; cbn in H; [|discriminate]. inversion H; subst.
    destruct Hx as [<-|Hx]; [|eapply IH; eauto]. unfold py_getitem in Ea. destruct (_ <? 0); [discriminate|]. destruct (nth_error l _) eqn:En; [|discriminate].
    inversion Ea; subst. eapply nth_error_In; eauto.
Qed.

Lemma slice_in {X} (l : list X) s r : tensor_slice l s = Ok r -> forall x, In x r -> In x l.
Proof.
  assert (E : list_slice l s = Ok r -> forall x, In x r -> In x l).
  { unfold list_slice. destruct (slice_indices _ _) as [((a, b), k)|e]; cbn; [|discriminate]. apply gather_in. }
  unfold tensor_slice. destruct (sl_step s) as [k|]; [|exact E]. destruct (k <=? 0); [discriminate|exact E].
Qed.

Lemma list_as_map {X} (l : list X) d : l = map (fun i => nth i l d) (seq 0 (length l)).
Proof.
  apply nth_ext with (d := d) (d' := d); [now rewrite map_length, seq_length|]. intros i Hi.
  rewrite nth_map_lt with (d' := 0%nat) by (rewrite seq_length; exact Hi). now rewrite seq_nth.
Qed.

Lemma row_getitem c w (t : @tensor V) rows i row s : holds_data c w t rows -> nth_error rows i = Some row -> sl_step s = None ->
  agree (holds_columns (V := V) c) (torch_getitem t (Tuple [IInt (Z.of_nat i); IEll; ISlice s])) (tensor_slice row s).
Proof.
  intros HD Hi _. pose proof HD as HG. rewrite holds_get in HG. destruct HG as (H1 & H2 & H3).
  assert (Li : (i < length rows)%nat) by (apply nth_error_Some; congruence).
  unfold sized in H2. rewrite Forall_forall in H2. destruct (H2 _ (nth_error_In _ _ Hi)) as (L1 & L2).
  unfold torch_getitem, ndim. rewrite H1. cbn [filter is_ell is_adv length Nat.ltb Nat.leb orb specified is_none negb andb Nat.sub torch_apply].
  cbn [ndim length shp]. unfold ndim. rewrite H1. cbn [length Nat.leb]. unfold size at 1. rewrite H1. cbn [nth].
  unfold dim_positions at 1. rewrite Nat2Z.id. unfold py_getitem at 1. rewrite (proj2 (Z.ltb_ge (Z.of_nat i) 0)) by lia.
  rewrite (proj2 (Z.ltb_ge (Z.of_nat i) 0)) by lia. rewrite Nat2Z.id, nth_error_map.
  rewrite (nth_error_nth' _ 0%nat) by (rewrite seq_length; exact Li). rewrite seq_nth by exact Li. cbn [option_map Nat.add].
  unfold t_select. rewrite H1. cbn [remove_nth firstn skipn app shp length Nat.leb]. unfold size. cbn [shp nth].
  unfold dim_positions. rewrite Nat2Z.id. rewrite slice_map.
  rewrite (list_as_map row []) at 1. rewrite L1. rewrite slice_map.
  destruct (tensor_slice (seq 0 w) s) as [ps|e] eqn:Es; [|reflexivity]. cbn [agree].
  assert (Hps : forall x, In x ps -> (x < w)%nat). { intros x Hx. apply (slice_in _ _ _ Es) in Hx. apply in_seq in Hx. lia. }
  apply columns_get. unfold t_take. cbn [shp list_set at_]. unfold zlen. rewrite !map_length. split; [reflexivity|]. split.
  - apply Forall_forall. intros col Hc. apply in_map_iff in Hc. destruct Hc as (x & <- & Hx). rewrite Forall_forall in L2. apply L2.
    apply nth_In. rewrite L1. auto.
  - intros p j Hp Hj. cbn [nth insert_nth firstn skipn app list_set]. rewrite Nat2Z.id.
    rewrite nth_map_lt with (d' := 0%nat) by exact Hp. rewrite H3 by (auto; apply Hps; now apply nth_In).
    unfold getc, get. rewrite (nth_error_nth _ _ _ Hi). rewrite nth_map_lt with (d' := 0%nat) by exact Hp. reflexivity.
Qed.

(* ---- what is left for the next call *)

Definition same_new (c : nat) (l : list (string * @tensor V)) (l' : list (string * list (list V))) : Prop :=
  Forall2 (fun a b => fst a = fst b /\ holds_columns c (snd a) (snd b)) l l'.

Lemma new_buffers_ok c w t rows s : holds_data c w t rows -> forall rest pre qs, rows = pre ++ rest -> length qs = length rest ->
  agree (same_new c) (new_buffers s t (Z.of_nat (length pre)) qs)
    (do bs <- mapM (fun q => let '(o, n, i, e, r) := q in
                     if e : bool then Ok []
                     else do b <- row_slice r (o * s) n; Ok [(i, b)]) (zip qs rest); Ok (List.concat bs)).
Proof.
  intros HD. induction rest as [|row rest IH]; intros pre [|(((o, n), id), e) qs] Hr Hl; cbn [length] in Hl; try lia.
  - cbn. constructor.
  - cbn [new_buffers zip]. unfold mapM. cbn [map seqM].
    assert (Hrow : nth_error rows (length pre) = Some row). { rewrite Hr, nth_error_app2 by lia. now rewrite Nat.sub_diag. }
    assert (IHa := IH (pre ++ [row]) qs ltac:(rewrite <- app_assoc; exact Hr) ltac:(lia)). unfold mapM in IHa. rewrite app_length in IHa. cbn [length] in IHa.
    replace (Z.of_nat (length pre + 1)) with (Z.of_nat (length pre) + 1) in IHa by lia.
    match type of IHa with agree _ ?l (do bs <- ?r; _) => set (L := l) in *; set (R := r) in * end.
    destruct e.
    + cbn. destruct L, R; cbn in *; try contradiction; auto.
    + pose proof (row_getitem c w t rows (length pre) row (mkSlice (Some (o * s)) (Some n) None) HD Hrow eq_refl) as HG.
      unfold row_slice. destruct (torch_getitem t _) as [u|e1], (tensor_slice row _) as [b|e2]; cbn in HG |- *; try contradiction; auto.
      destruct L, R; cbn in *; try contradiction; auto. constructor; auto.
Qed.

(* ---- torch.conv1d *)

Lemma flat_map_map {X Y Z} (f : X -> Y) (g : Y -> list Z) l : flat_map g (map f l) = flat_map (fun x => g (f x)) l.
Proof. induction l; cbn; congruence. Qed.
Lemma flat_map_ext_in {X Y} (f g : X -> list Y) l : (forall x, In x l -> f x = g x) -> flat_map f l = flat_map g l.
Proof. induction l; cbn; intros H; [reflexivity|]. rewrite H by auto. rewrite IHl; auto. Qed.

Lemma nth_default c (l : list (list V)) q j : nth j (nth q l (repeat (zero A) c)) (zero A) = getc l q j.
Proof.
  unfold getc. destruct (Nat.lt_ge_cases q (length l)) as [H|H].
  - now rewrite nth_indep with (d' := []).
  - rewrite !(nth_overflow l) by exact H. rewrite nth_repeat_zero, nth_nothing. reflexivity.
Qed.

Context (k : conv_args V) (cin cout cg ks s d p : nat) (HM : module_ok k cin cout cg ks s d p).
Notation C := (columns_cfg A k cin cout cg ks s d p).

Lemma torch_conv_ok w t rows np : holds_data cin w t rows ->
  agree (fun t' q => holds_data cout (fst q) t' (snd q) /\ length (snd q) = length rows /\ (1 <= fst q)%nat)
    (torch_conv1d_t A t k (Z.of_nat np)) (torch_conv1d C np w rows).
Proof.
  rewrite holds_get. intros (H1 & H2 & H3). destruct HM as [M1 M2 M3 M4 M5 M6 M7 M8 M9].
  unfold torch_conv1d_t, torch_conv1d. rewrite M3, M4, M1, H1. cbn [single_of bind]. cbn [ksize dilat strd columns_cfg].
  destruct M8 as (per & Hper & M8).
  replace ((groups k <=? 0) || (Z.of_nat s <=? 0) || (Z.of_nat np <? 0) || (Z.of_nat d <=? 0)) with false by lia.
  assert (Emod : Z.of_nat cout mod groups k = 0) by (rewrite M8; apply Z.mod_mul; lia). rewrite Emod.
  assert (Hge : groups k <= Z.of_nat cout) by nia.
  replace (negb (0 =? 0) || negb (Z.of_nat cin =? Z.of_nat cg * groups k) || (Z.of_nat cout <? groups k)) with false by lia.
  assert (Eb : match bias k with Some b => negb (list_eqb Z.eqb (shp b) [Z.of_nat cout]) | None => false end = false).
  { destruct (bias k) as [b|]; [|reflexivity]. rewrite M2. cbn. now rewrite Z.eqb_refl. }
  rewrite Eb. clear Eb. cbv zeta.
  replace (Z.of_nat (w + 2 * np)) with (Z.of_nat w + 2 * Z.of_nat np) by lia.
  set (eff := Z.of_nat d * (Z.of_nat ks - 1) + 1). set (W := Z.of_nat w + 2 * Z.of_nat np).
  destruct (W <? eff) eqn:EW; [reflexivity|]. cbn [agree fst snd].
  assert (Hq : 0 <= (W - eff) / Z.of_nat s) by (apply Z.div_pos; lia).
  set (n := Z.to_nat ((W - eff) / Z.of_nat s + 1)). assert (En : (W - eff) / Z.of_nat s + 1 = Z.of_nat n) by lia. rewrite En.
  split; [|split; [now rewrite map_length|lia]].
  apply holds_get. cbn [shp at_]. rewrite map_length. split; [reflexivity|]. split.
  - unfold sized. apply Forall_forall. intros r Hr. apply in_map_iff in Hr. destruct Hr as (r0 & <- & _). unfold torch_conv_row. rewrite map_length, seq_length.
    split; [reflexivity|]. apply Forall_forall. intros col Hc. apply in_map_iff in Hc. destruct Hc as (i & <- & _). cbn [kfun columns_cfg]. now rewrite map_length, seq_length.
  - intros b i o Hb Hi Ho. cbn [nth]. unfold get. rewrite nth_map_lt with (d' := []) by exact Hb. unfold torch_conv_row.
    rewrite nth_map_lt with (d' := 0%nat) by (now rewrite seq_length). rewrite seq_nth by exact Hi. cbn [kfun columns_cfg Nat.add ksize strd dilat zin].
    rewrite nth_map_lt with (d' := 0%nat) by (now rewrite seq_length). rewrite seq_nth by exact Ho. cbn [Nat.add]. unfold out_channel. f_equal.
    unfold dim_positions. rewrite !Nat2Z.id. rewrite flat_map_map. apply flat_map_ext_in. intros c Hc. apply in_seq in Hc. rewrite map_map.
    apply map_ext_in. intros j Hj. apply in_seq in Hj. f_equal.
    assert (Eper : Z.of_nat cout / groups k = per) by (rewrite M8; apply Z.div_mul; lia). rewrite Eper.
    assert (Eper' : (cout / Z.to_nat (groups k))%nat = Z.to_nat per).
    { apply Nat2Z.inj. rewrite Nat2Z.inj_div, !Z2Nat.id by lia. exact Eper. }
    rewrite Eper'.
    assert (Ech : Z.of_nat o / per * Z.of_nat cg + Z.of_nat c = Z.of_nat (o / Z.to_nat per * cg + c)).
    { rewrite Nat2Z.inj_add, Nat2Z.inj_mul, Nat2Z.inj_div, Z2Nat.id by lia. reflexivity. }
    rewrite Ech.
    assert (Hch : (o / Z.to_nat per * cg + c < cin)%nat).
    { assert (Z.of_nat o / per < groups k) by (apply Z.div_lt_upper_bound; lia). assert (0 <= Z.of_nat o / per) by (apply Z.div_pos; lia).
      apply Nat2Z.inj_lt. rewrite <- Ech, M7. nia. }
    set (ch := (o / Z.to_nat per * cg + c)%nat) in *.
    rewrite nth_map_lt with (d' := 0%nat) by (rewrite seq_length; lia). rewrite seq_nth by lia. cbn [Nat.add].
    rewrite nth_default. change (repeat (repeat (zero A) cin) np ++ nth b rows [] ++ repeat (repeat (zero A) cin) np) with (padcols cin np np (nth b rows [])).
    rewrite getc_padcols.
    assert (Lr : length (nth b rows []) = w). { unfold sized in H2. rewrite Forall_forall in H2. apply H2. apply nth_In. exact Hb. }
    rewrite Lr. unfold at_padded. set (q := (i * s + j * d)%nat).
    replace (Z.of_nat i * Z.of_nat s + Z.of_nat j * Z.of_nat d - Z.of_nat np) with (Z.of_nat q - Z.of_nat np) by (unfold q; lia).
    replace ((0 <=? Z.of_nat q - Z.of_nat np) && (Z.of_nat q - Z.of_nat np <? Z.of_nat w)) with ((np <=? q)%nat && (q <? np + w)%nat) by lia.
    destruct ((np <=? q)%nat && (q <? np + w)%nat) eqn:E; [|reflexivity].
    replace (Z.of_nat q - Z.of_nat np) with (Z.of_nat (q - np)) by lia. rewrite H3 by lia. reflexivity.
Qed.

(* ---- mask *)

Lemma mask_output_ok w t rows mask : mask_clears A -> holds_data cout w t rows -> length mask = length rows -> Forall (fun m => length m = w) mask ->
  exists t', mask_output A t mask = Ok t' /\
    holds_data cout w t' (map (fun q => map (fun u : bool * list V => if fst u then snd u else repeat (zero A) cout) (zip (fst q) (snd q))) (zip mask rows)).
Proof.
  intros (K1 & K2). rewrite holds_get. intros (H1 & H2 & H3) Lm Hm. unfold mask_output. rewrite H1.
  replace (zlen mask =? Z.of_nat (length rows)) with true by (unfold zlen; lia). cbn [orb]. eexists. split; [reflexivity|].
  unfold sized in H2. rewrite Forall_forall in H2, Hm.
  apply holds_get. cbn [shp at_]. rewrite map_length, length_zip by exact Lm. rewrite Lm. split; [reflexivity|]. split.
  - apply Forall_forall. intros r Hr. apply in_map_iff in Hr. destruct Hr as ((m, r0) & <- & Hin). apply In_zip in Hin. destruct Hin as (I1 & I2).
    destruct (H2 _ I2) as (L1 & L2). pose proof (Hm _ I1) as L3. cbn [fst snd]. rewrite map_length, length_zip by lia. split; [exact L3|].
    apply Forall_forall. intros col Hc. apply in_map_iff in Hc. destruct Hc as ((b, c0) & <- & Hin). apply In_zip in Hin. cbn [fst snd].
    destruct b; [|apply repeat_length]. rewrite Forall_forall in L2. now apply L2.
  - intros i q j Hi Hq Hj. cbn [nth].
    assert (L1 : length (nth i rows []) = w) by (apply H2, nth_In, Hi).
    assert (L3 : length (nth i mask []) = w) by (apply Hm, nth_In; lia).
    assert (Er : Z.to_nat (if zlen mask =? 1 then 0 else Z.of_nat i) = i). { unfold zlen. destruct (Z.of_nat (length mask) =? 1) eqn:E; lia. }
    rewrite Er, Nat2Z.id. unfold get at 1. rewrite nth_map_lt with (d' := ([], [])) by (rewrite length_zip; lia). rewrite nth_zip by exact Lm. cbn [fst snd].
    rewrite nth_map_lt with (d' := (false, [])) by (rewrite length_zip; lia). rewrite nth_zip by lia. cbn [fst snd].
    rewrite H3 by assumption. destruct (nth q (nth i mask []) false); [apply K1|]. rewrite K2. symmetry. apply nth_repeat_zero.
Qed.

Lemma mask_shape ol n mask : sequence_mask ol (Some (Z.of_nat n)) false = Ok mask -> (1 <= n)%nat ->
  length mask = length ol /\ Forall (fun m => length m = n) mask.
Proof.
  intros H Hn. unfold sequence_mask in H. replace (Z.of_nat n =? 0) with false in H by lia. cbn in H.
  replace (Z.of_nat n <? 0) with false in H by lia. inversion H; subst. rewrite map_length. split; [reflexivity|].
  apply Forall_forall. intros m Hm. apply in_map_iff in Hm. destruct Hm as (a & <- & _). now rewrite !map_length, seq_length, Nat2Z.id.
Qed.

(* ---- conv1d *)

Definition fields_fit (m : meta) (n : nat) : Prop :=
  length (ids m) = n /\ length (sos m) = n /\ length (eos m) = n /\ length (lens m) = n.

Lemma length_add fl pp l : length fl = length l -> length (add_where fl pp l) = length l.
Proof. intros H. unfold add_where. rewrite map_length, length_zip; lia. Qed.

Lemma fit_pad m n pp : fields_fit m n -> fields_fit (with_lens m (pad_lens pp m)) n.
Proof.
  intros (F1 & F2 & F3 & F4). unfold fields_fit, with_lens; cbn [ids sos eos lens]. repeat split; auto.
  unfold pad_lens. destruct (all_starting_and_ending m); [now rewrite map_length|]. destruct (any_starting_or_ending m); [|exact F4].
  rewrite !length_add; try lia. rewrite length_add; lia.
Qed.

Lemma rename_ok f : channel_name f -> rename 3 [Some "B"%string; f; Some "L"%string] = Ok [Some "B"%string; f; Some "L"%string].
Proof.
  intros (F1 & F2). unfold rename, refine_names. cbn [length Nat.eqb andb names_dup names_mem existsb dname_eqb].
  destruct f as [f|]; [|reflexivity]. cbn [names_dup names_mem existsb dname_eqb].
  destruct (String.eqb_spec "B" f) as [E|E]; [congruence|]. destruct (String.eqb_spec f "L") as [E'|E']; [congruence|]. reflexivity.
Qed.

Lemma int_padding_ok : int_padding (padding k) = Ok (Z.of_nat p).
Proof.
  destruct HM as [_ _ _ _ M5 _ _ _ _]. unfold int_padding. destruct M5 as [->|(-> & ->)]; cbn; [|reflexivity].
  rewrite (proj2 (Z.ltb_ge (Z.of_nat p) 0)) by lia. reflexivity.
Qed.

Lemma conv1d_ok f x b : mask_clears A -> channel_name f -> holds cin f x b -> fields_fit (bm b) (length (bd b)) ->
  agree (fun q q' => holds cout f (fst q) (fst q') /\ same_new cin (snd q) (snd q')) (conv1d_t A k x) (conv1d C b).
Proof.
  intros HA Hf [HD HN HMe] HF. unfold conv1d_t, conv1d. rewrite int_padding_ok. cbn [bind].
  pose proof HM as [M1 M2 M3 M4 M5 M6 M7 M8 M9]. rewrite M1, M3, M4. cbn [nth_error bind first_of]. cbn [padn columns_cfg].
  rewrite HMe, HN.
  assert (Em : (if 0 <? Z.of_nat p then set_lengths (bm b) (padded_lengths (Z.of_nat p) (bm b)) else bm b)
             = (if (0 <? p)%nat then with_lens (bm b) (pad_lens (Z.of_nat p) (bm b)) else bm b)).
  { replace (0 <? Z.of_nat p) with (0 <? p)%nat by lia. reflexivity. }
  rewrite Em. clear Em. set (m1 := if (0 <? p)%nat then _ else _).
  assert (HF1 : fields_fit m1 (length (bd b))). { unfold m1. destruct (0 <? p)%nat; [now apply fit_pad|exact HF]. }
  clearbody m1. replace (0 <? Z.of_nat p) with (0 <? p)%nat by lia.
  apply agree_bind with (R := fun q q' => holds_data cin (fst (fst q')) (fst q) (snd (fst q')) /\ length (snd (fst q')) = length (bd b) /\ snd q = Z.of_nat (snd q')).
  { destruct ((0 <? p)%nat && negb (all_starting_and_ending m1)); [|cbn; auto].
    apply agree_bind with (R := fun t' q => holds_data cin (fst q) t' (snd q) /\ length (snd q) = length (bd b)).
    - apply (pad_input_ok C cin m1 (bw b) (tn x) (bd b)); [reflexivity|exact HD|]. apply HF1.
    - intros t (w1, rows1) (K1 & K2). cbn in *. auto. }
  intros (t, np) ((w1, rows1), np') (HD1 & L1 & En). cbn [fst snd] in HD1, L1, En. subst np.
  unfold out_lengths. replace (Z.of_nat s =? 0) with false by lia. cbn [bind].
  change (map (fun n => Z.max 0 ((n - width_of (Z.of_nat ks) (Z.of_nat d)) / Z.of_nat s + 1)) (lens m1)) with (map (output_length C) (lens m1)).
  set (ol := map (output_length C) (lens m1)). assert (Lol : length ol = length (bd b)) by (unfold ol; rewrite map_length; apply HF1).
  destruct HF1 as (F1 & F2 & F3 & F4).
  apply agree_bind with (R := same_new cin).
  { unfold temp_buffer. change (kernel_width C) with (width_of (Z.of_nat ks) (Z.of_nat d)).
    destruct ((1 <? width_of (Z.of_nat ks) (Z.of_nat d)) && negb (all_ending m1)); [|cbn; constructor].
    apply (new_buffers_ok cin w1 t rows1 (Z.of_nat s) HD1 rows1 [] (zip (zip (zip ol (lens m1)) (ids m1)) (eos m1)) eq_refl).
    assert (Z1 : length (zip ol (lens m1)) = length (bd b)) by (rewrite length_zip; congruence).
    assert (Z2 : length (zip (zip ol (lens m1)) (ids m1)) = length (bd b)) by (rewrite length_zip; congruence).
    rewrite length_zip; congruence. }
  intros tmp tmp' Htmp.
  eapply agree_bind; [apply (torch_conv_ok w1 t rows1 np' HD1)|].
  intros o (wo, out) (HO & LO & Hwo). cbn [fst snd] in HO, LO, Hwo.
  assert (Esh := proj1 HO). assert (End : ndim o = 3%nat) by (unfold ndim; rewrite Esh; reflexivity).
  rewrite End, rename_ok by exact Hf. cbn [bind]. assert (Esz : size o 2 = Z.of_nat wo) by (unfold size; rewrite Esh; reflexivity). rewrite Esz.
  destruct (sequence_mask ol (Some (Z.of_nat wo)) false) as [mask|e] eqn:Emask; [|reflexivity]. cbn [bind].
  destruct (mask_shape _ _ _ Emask Hwo) as (Lm & Hm).
  destruct (mask_output_ok wo o out mask HA HO ltac:(lia) Hm) as (t' & -> & HT). cbn [bind agree fst snd].
  split; [|exact Htmp]. constructor; cbn [tn names smeta bw bd bm]; [exact HT|reflexivity|reflexivity].
Qed.

End ConvTensorProofs.

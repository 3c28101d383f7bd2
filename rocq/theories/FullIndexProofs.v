(** Proofs: the complete model of indexing agrees with [Named.getitem] where the latter is defined. *)

From Coq Require Import String List ZArith Bool Lia.
From Coq Require Import ZifyBool.
From Verif Require Import Py Meta Named NamedSpec NamedProofs NamedSelProofs NamedIndexProofs Gather FullIndex FullIndexSpec.
Import ListNotations.
Open Scope Z_scope.

Lemma list_set_length {A} (l : list A) : forall n x, length (list_set l n x) = length l.
Proof. induction l; destruct n; intros; simpl; auto. Qed.

Lemma filter_plain (f : item -> bool) (g : xitem -> bool) l : (forall i, g (Plain i) = f i) ->
  filter g (map Plain l) = map Plain (filter f l).
Proof. intros H. induction l as [|i l IH]; [reflexivity|]. cbn. rewrite H, IH. now destruct (f i). Qed.

Lemma plain_specified_x l : x_specified (map Plain l) = specified l.
Proof.
  unfold x_specified, specified. induction l as [|i l IH]; [reflexivity|].
  cbn [map list_sum fold_right filter]. unfold list_sum in IH. rewrite IH. destruct i; reflexivity.
Qed.

Lemma plain_mask_then l : mask_then_basic (map Plain l) = false /\ existsb rank_0 (map Plain l) = false.
Proof. induction l as [|i l [IH1 IH2]]; [split; reflexivity|]. cbn. auto. Qed.

Lemma plain_apply {V} l : forall (t : @tensor V) d gap,
  (length (filter is_ell l) <= 1)%nat ->
  (d + specified l + (if existsb is_ell l then gap else 0) <= ndim t)%nat ->
  x_apply t d gap (map Plain l) = torch_apply t d gap l.
Proof.
  induction l as [|i l IH]; intros t d gap HE HD; [reflexivity|].
  cbn [map x_apply]. unfold specified in HD. cbn [filter] in HD.
  assert (S1 : forall j, is_none j = false -> is_ell j = false ->
    in_place t d gap (Plain j) = do t' <- torch_apply t d gap [j]; Ok (t', match j with IInt _ | IScalar _ => d | _ => S d end)).
  { intros j H1 H2. destruct j; try discriminate; reflexivity. }
  destruct i; try (rewrite S1 by reflexivity); cbn [is_none is_ell negb andb length existsb orb filter] in *.
  - cbn [in_place]. replace (Nat.ltb (ndim t) d) with false by (symmetry; apply Nat.ltb_ge; lia). cbn [bind].
    rewrite IH; [reflexivity|auto|]. unfold specified, t_unsqueeze, ndim. cbn [shp].
    unfold insert_nth. rewrite app_length. cbn [length]. rewrite firstn_length, skipn_length. unfold ndim in HD. lia.
  - cbn [in_place bind]. rewrite IH; [reflexivity|lia|].
    assert (existsb is_ell l = false) as ->.
    { destruct (existsb is_ell l) eqn:E; auto. apply existsb_exists in E as (j & Hj & Hjj).
      destruct (filter is_ell l) eqn:F; [|simpl in HE; lia].
      assert (In j (filter is_ell l)) by (apply filter_In; auto). rewrite F in H. destruct H. }
    unfold specified. lia.
  - cbn [torch_apply bind]. destruct (Nat.leb (ndim t) d) eqn:E; [reflexivity|]. apply Nat.leb_gt in E.
    destruct (py_getitem _ _) as [p|]; [|reflexivity]. cbn [bind]. apply IH; [auto|].
    unfold specified, t_select, ndim. cbn [shp]. unfold remove_nth. rewrite app_length, firstn_length, skipn_length.
    unfold ndim in HD, E. lia.
  - cbn [torch_apply bind]. destruct (Nat.leb (ndim t) d) eqn:E; [reflexivity|].
    destruct (tensor_slice _ _) as [p|]; [|reflexivity]. cbn [bind]. apply IH; [auto|].
    unfold specified, t_take, ndim. cbn [shp]. rewrite list_set_length. unfold ndim in HD. lia.
  - cbn [torch_apply bind]. destruct (Nat.leb (ndim t) d) eqn:E; [reflexivity|].
    destruct (py_gather _ _) as [p|]; [|reflexivity]. cbn [bind]. apply IH; [auto|].
    unfold specified, t_take, ndim. cbn [shp]. rewrite list_set_length. unfold ndim in HD. lia.
  - cbn [torch_apply bind]. destruct (Nat.leb (ndim t) d) eqn:E; [reflexivity|].
    destruct (py_gather _ _) as [p|]; [|reflexivity]. cbn [bind]. apply IH; [auto|].
    unfold specified, t_take, ndim. cbn [shp]. rewrite list_set_length. unfold ndim in HD. lia.
  - cbn [torch_apply bind]. destruct (Nat.leb (ndim t) d) eqn:E; [reflexivity|].
    destruct (tensor_mask _ _) as [p|]; [|reflexivity]. cbn [bind]. apply IH; [auto|].
    unfold specified, t_take, ndim. cbn [shp]. rewrite list_set_length. unfold ndim in HD. lia.
  - cbn [torch_apply bind]. destruct (Nat.leb (ndim t) d) eqn:E; [reflexivity|]. apply Nat.leb_gt in E.
    destruct (py_getitem _ _) as [p|]; [|reflexivity]. cbn [bind]. apply IH; [auto|].
    unfold specified, t_select, ndim. cbn [shp]. unfold remove_nth. rewrite app_length, firstn_length, skipn_length.
    unfold ndim in HD, E. lia.
Qed.

Lemma torch_restricts {V} (t : @tensor V) ix : torch_getitem t ix <> Err Undefined ->
  x_torch_getitem t (lift ix) = torch_getitem t ix.
Proof.
  intros H. unfold x_torch_getitem, torch_getitem in *.
  set (l := match ix with Single i => [i] | Tuple l => l end) in *.
  replace (match lift ix with XSingle i => [i] | XTuple l => l end) with (map Plain l) by (destruct ix; reflexivity).
  destruct (plain_mask_then l) as [-> ->]. cbn [orb].
  rewrite plain_specified_x. rewrite (filter_plain is_adv) by reflexivity. rewrite map_length.
  destruct (Nat.ltb 1 (length (filter is_ell l))) eqn:E1; [cbn [orb] in H; congruence|].
  destruct (Nat.ltb 1 (length (filter is_adv l))) eqn:E2; [cbn [orb] in H; congruence|]. cbn [orb].
  destruct (Nat.ltb (ndim t) (specified l)) eqn:E3; [reflexivity|].
  apply Nat.ltb_ge in E1, E3. apply plain_apply; [auto|]. destruct (existsb is_ell l); lia.
Qed.

Lemma ell_positions_from l : forall k,
  map fst (filter (fun p => x_ell (snd p)) (combine (seq k (length l)) (map Plain l))) =
  match find_ell l with
  | None => []
  | Some j => (k + j)%nat :: map fst (filter (fun p => x_ell (snd p)) (combine (seq (S (k + j)) (length l - S j)) (map Plain (skipn (S j) l))))
  end.
Proof.
  induction l as [|i l IH]; intros k; [reflexivity|].
  cbn [length seq combine map filter snd find_ell].
  change (x_ell (Plain i)) with (is_ell i). destruct (is_ell i).
  - cbn [map fst]. rewrite Nat.add_0_r. cbn [skipn]. rewrite Nat.sub_succ, Nat.sub_0_r. reflexivity.
  - rewrite IH. destruct (find_ell l) as [j|]; [|reflexivity]. cbn [option_map].
    replace (S k + j)%nat with (k + S j)%nat by lia. reflexivity.
Qed.

Lemma ell_positions_length l : length (ell_positions l) = length (filter x_ell l).
Proof.
  unfold ell_positions. rewrite map_length.
  enough (G : forall k, length (filter (fun p => x_ell (snd p)) (combine (seq k (length l)) l)) = length (filter x_ell l)) by apply G.
  induction l as [|i l IH]; intros k; [reflexivity|]. cbn [length seq combine filter snd].
  destruct (x_ell i); cbn [length]; now rewrite IH.
Qed.

Lemma ell_positions_plain l : ell_positions (map Plain l) =
  match find_ell l with
  | None => []
  | Some j => j :: map fst (filter (fun p => x_ell (snd p)) (combine (seq (S j) (length l - S j)) (map Plain (skipn (S j) l))))
  end.
Proof. unfold ell_positions. rewrite map_length. exact (ell_positions_from l 0). Qed.

Lemma x_indexed_plain l : x_indexed (map Plain l) = number_of_indexed l.
Proof.
  unfold x_indexed, number_of_indexed. rewrite (filter_plain (fun i => negb (is_none i))) by (intros []; reflexivity).
  apply map_length.
Qed.

Lemma map_repeat' {A B} (f : A -> B) a n : map f (repeat a n) = repeat (f a) n.
Proof. induction n; simpl; congruence. Qed.

Lemma replace_restricts l nd : (length (filter is_ell l) <= 1)%nat ->
  x_replace (map Plain l) nd = Ok (map Plain (replace_ellipsis l nd)).
Proof.
  intros H. unfold x_replace. rewrite ell_positions_length. rewrite (filter_plain is_ell) by reflexivity. rewrite map_length.
  replace (Nat.ltb 1 (length (filter is_ell l))) with false by (symmetry; now apply Nat.ltb_ge).
  f_equal. unfold replace_first, replace_ellipsis. rewrite ell_positions_plain.
  destruct (find_ell l) as [k|]; [|reflexivity].
  rewrite x_indexed_plain, !map_app, map_repeat', firstn_map, skipn_map. reflexivity.
Qed.

Lemma describe_restricts nms l : forall d,
  match describe_items nms d l with
  | Ok (a, n) => exists a', x_describe_all nms d (map Plain l) = Ok (a', n) /\ a = List.concat a' /\ length a' = length l
  | Err e => x_describe_all nms d (map Plain l) = Err e
  end.
Proof.
  induction l as [|i l IH]; intros d; cbn [map describe_items x_describe_all].
  - exists []. auto.
  - change (x_describe nms d (Plain i)) with (describe_item nms d i).
    destruct (describe_item nms d i) as [[a n]|e]; [|reflexivity]. cbn [bind].
    specialize (IH (S d)). destruct (describe_items nms (S d) l) as [[a' n']|e'].
    + destruct IH as (b & -> & -> & Hl). cbn [bind]. exists (a :: b). simpl. auto.
    + rewrite IH. reflexivity.
Qed.

Lemma locations_plain l : forall k aff, mask_locations k aff (map Plain l) = [].
Proof. induction l as [|i l IH]; intros k [|a aff]; try reflexivity. cbn. apply IH. Qed.

Lemma nth_plain l d : nth d (map Plain l) (Plain INone) = Plain (nth d l INone).
Proof. apply map_nth. Qed.

Lemma getitem_restricts {V} (x : @stensor V) ix : torch_getitem (tn x) ix <> Err Undefined ->
  x_getitem x (lift ix) = do y <- getitem x ix; Ok (OStream y).
Proof.
  intros H. unfold x_getitem, getitem. rewrite (torch_restricts _ _ H).
  destruct (torch_getitem (tn x) ix) as [t'|e] eqn:ET; [|reflexivity]. cbn [bind].
  assert (HE : (length (filter is_ell (match ix with Single i => [i] | Tuple l => l end)) <= 1)%nat).
  { unfold torch_getitem in ET. destruct (Nat.ltb 1 (length (filter is_ell _))) eqn:E; [discriminate|].
    now apply Nat.ltb_ge in E. }
  clear H ET.
  assert (D : match determine_dims (names x) ix with
    | Ok (items, aff, nn, multi) => exists aff', x_determine (names x) (lift ix) = Ok (map Plain items, aff', nn, multi) /\
                                    aff = List.concat aff'
    | Err e => x_determine (names x) (lift ix) = Err e end).
  { destruct ix as [i|l]; cbn [lift x_determine determine_dims].
    - destruct i; try (eexists; split; [reflexivity|reflexivity]). cbn [x_describe_single bind].
      eexists. split; [reflexivity|]. cbn. now rewrite app_nil_r.
    - rewrite replace_restricts by exact HE. cbn [bind].
      pose proof (describe_restricts (names x) (replace_ellipsis l (length (names x))) 0) as D.
      destruct (describe_items _ _ _) as [[a n]|e]; [|rewrite D; reflexivity].
      destruct D as (a' & -> & -> & _). cbn [bind].
      set (l' := replace_ellipsis l (length (names x))).
      destruct l' as [|i0 l0] eqn:El; [reflexivity|]. rewrite <- El in *.
      assert (exists j r, rev (map Plain l') = Plain j :: r) as (j & r & Er).
      { rewrite <- map_rev. destruct (rev l') eqn:Er; [|cbn; eauto].
        apply (f_equal (@length item)) in Er. rewrite rev_length, El in Er. discriminate. }
      rewrite Er. cbn [extra_dims]. rewrite x_indexed_plain. eexists. split; [|reflexivity].
      repeat f_equal. lia. }
  destruct (determine_dims (names x) ix) as [[[[items aff] nn] multi]|e]; [|rewrite D; reflexivity].
  destruct D as (aff' & -> & ->). cbn [bind].
  destruct (names_index (Some BATCH) (names x)) as [bd|]; [|reflexivity]. cbn [bind].
  destruct (names_index (Some LENGTH) (names x)) as [ld|]; [|reflexivity]. cbn [bind].
  rewrite locations_plain. cbn [mask_indices].
  destruct (nat_mem bd (List.concat aff') || nat_mem ld (List.concat aff')) eqn:E; cbn [negb].
  2:{ destruct (refine_names _ _); reflexivity. }
  destruct (refine_names _ _) as [nn'|]; [|reflexivity]. cbn [bind].
  rewrite !nth_plain.
  assert (EB : forall b c : bool, x_bidx (if b then Plain (nth bd items INone) else Plain (nth 0 items INone)) =
     to_bidx (if b then nth bd items INone else nth 0 items INone)) by (intros [] _; reflexivity).
  assert (EL : forall b c : bool, x_lidx (if b then Plain (nth ld items INone) else Plain (nth 0 items INone)) =
     to_lidx (if b then nth ld items INone else nth 0 items INone)) by (intros [] _; reflexivity).
  rewrite (EB multi true), (EL multi true).
  destruct (index_pair _ _ _); reflexivity.
Qed.

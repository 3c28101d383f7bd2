(** Proofs: what x[..., mask] does to data, names and metadata when the mask has several dimensions. *)

From Coq Require Import String List ZArith Bool Lia.
From Coq Require Import ZifyBool.
From Verif Require Import Py Meta MetaSpec MetaProofs MetaLenProofs MetaSplitProofs MetaBatchProofs Named NamedSpec NamedProofs
  NamedSelProofs NamedIndexProofs NamedMetaProofs NamedGetProofs NamedShapeProofs Gather FullIndex FullIndexSpec FullIndexProofs FullRankProofs
  FullMaskProofs.
Import ListNotations.
Open Scope Z_scope.

Lemma list_eqb_Z_refl l : list_eqb Z.eqb l l = true.
Proof. induction l as [|a l IH]; [reflexivity|]. cbn. now rewrite Z.eqb_refl, IH. Qed.

Lemma firstn_len_app {A} (a b : list A) : firstn (length a) (a ++ b) = a.
Proof. rewrite firstn_app, Nat.sub_diag, firstn_all, firstn_O, app_nil_r. reflexivity. Qed.
Lemma skipn_len_app {A} (a b : list A) : skipn (length a) (a ++ b) = b.
Proof. rewrite skipn_app, Nat.sub_diag, skipn_all. reflexivity. Qed.

Lemma in_place_plain {V} (t : @tensor V) d gap i : plain_item i -> in_place t d gap (Plain i) = item_step t d i.
Proof.
  intros H. unfold in_place. destruct i; try contradiction; rewrite torch_apply_step by exact H.
  all: unfold item_step; destruct (Nat.leb (ndim t) d); [reflexivity|].
  all: try (destruct (py_getitem _ _); reflexivity). all: try (destruct (tensor_slice _ _); reflexivity).
  all: try (destruct (py_gather _ _); reflexivity). all: destruct (tensor_mask _ _); reflexivity.
Qed.

(** Items for the dimensions [sizes] in the middle of a tensor. *)
Lemma x_apply_mid {V} items : forall (t : @tensor V) pre sizes post ss gap k,
  shp t = pre ++ sizes ++ post -> Forall (fun n => 0 <= n) sizes ->
  picks_all sizes items ss ->
  exists t', x_apply t (length pre) gap (map Plain items ++ k) = x_apply t' (length pre + length (kept_sizes ss sizes)) gap k
    /\ shp t' = pre ++ kept_sizes ss sizes ++ post
    /\ forall ia ib ic, length ia = length pre -> in_range (kept_sizes ss sizes) ib ->
       at_ t' (ia ++ ib ++ ic) = at_ t (ia ++ source ss ib ++ ic).
Proof.
  induction items as [|i items IH]; intros t pre sizes post ss gap k E Hn HP.
  - inversion HP; subst. exists t. cbn [kept_sizes length app map].
    rewrite Nat.add_0_r. split; [reflexivity|]. split; [exact E|].
    intros ia ib ic _ H. inversion H; subst. reflexivity.
  - inversion HP as [|n ? s sizes' ? ss' Hs HP']; subst. rename sizes' into sizes.
    inversion Hn; subst.
    cbn [app map x_apply] in *. rewrite in_place_plain by (eapply picks_plain; eauto).
    rewrite (item_step_picks _ _ _ _ _ _ E H1 Hs). cbn [bind].
    destruct s as [|p|ps].
    + destruct (IH (t_take t (length pre) (positions n)) (pre ++ [n]) sizes post ss' gap k) as (t' & A & B & C); auto.
      { rewrite (t_take_shp _ _ _ _ _ E), zlen_positions by auto. apply app_snoc_assoc. }
      exists t'. cbn [kept_sizes]. rewrite app_length in A. cbn [length] in *.
      split; [rewrite Nat.add_1_r in A; rewrite A; f_equal; lia|].
      split; [rewrite B; now rewrite <- app_assoc|].
      intros ia ib ic Hia Hib. inversion Hib as [|? j ? ib' Hj Hib']; subst. cbn [source app].
      rewrite app_snoc_assoc. rewrite C; [|rewrite !app_length; simpl; lia|auto].
      rewrite <- app_snoc_assoc. rewrite t_take_at by auto. rewrite nth_positions by auto. reflexivity.
    + destruct (IH (t_select t (length pre) p) pre sizes post ss' gap k) as (t' & A & B & C); auto.
      { apply (t_select_shp _ _ _ _ _ E). }
      exists t'. cbn [kept_sizes]. split; [exact A|]. split; [exact B|].
      intros ia ib ic Hia Hib. cbn [source app]. rewrite C by auto. now rewrite t_select_at.
    + destruct (IH (t_take t (length pre) ps) (pre ++ [zlen ps]) sizes post ss' gap k) as (t' & A & B & C); auto.
      { rewrite (t_take_shp _ _ _ _ _ E). apply app_snoc_assoc. }
      exists t'. cbn [kept_sizes]. rewrite app_length in A. cbn [length] in *.
      split; [rewrite Nat.add_1_r in A; rewrite A; f_equal; lia|].
      split; [rewrite B; now rewrite <- app_assoc|].
      intros ia ib ic Hia Hib. inversion Hib as [|? j ? ib' Hj Hib']; subst. cbn [source app].
      rewrite app_snoc_assoc. rewrite C; [|rewrite !app_length; simpl; lia|auto].
      rewrite <- app_snoc_assoc. now rewrite t_take_at by auto.
Qed.

(** A mask applied in the middle of a tensor. *)
Lemma in_place_mask {V} (t : @tensor V) d gap m a b : shp t = a ++ shp m ++ b -> length a = d ->
  exists t', in_place t d gap (XMask m) = Ok (t', S d) /\ masked_out d m t t' /\
    shp t' = a ++ zlen (true_positions m) :: b.
Proof.
  intros E <-. unfold in_place. cbv zeta. rewrite E. unfold ndim at 1. rewrite skipn_len_app, firstn_len_app, list_eqb_Z_refl. cbn [negb].
  unfold ndim. rewrite <- app_length. rewrite firstn_len_app.
  rewrite app_assoc, skipn_len_app.
  eexists. split; [reflexivity|]. split; [|reflexivity].
  exists (true_positions m). split; [apply true_positions_marks|]. cbn [shp at_].
  rewrite E. rewrite <- app_length, app_assoc, skipn_len_app, <- app_assoc, firstn_len_app. split; [reflexivity|].
  intros ia j ic p Hia Hj. rewrite <- Hia, firstn_len_app, nth_app_here. rewrite Nat2Z.id.
  erewrite nth_error_nth by exact Hj. f_equal. f_equal. f_equal. rewrite app_snoc_assoc.
  replace (S (length ia)) with (length (ia ++ [Z.of_nat j])) by (rewrite app_length; simpl; lia). now rewrite skipn_len_app.
Qed.

Lemma plain_selected {V} (t t1 : @tensor V) n1 post ss : shp t = n1 ++ post -> length ss = length n1 ->
  shp t1 = kept_sizes ss n1 ++ post ->
  (forall ib ic, in_range (kept_sizes ss n1) ib -> at_ t1 (ib ++ ic) = at_ t (source ss ib ++ ic)) ->
  selected t (ss ++ repeat Full (length post)) t1.
Proof.
  intros E L E1 A. split.
  - rewrite E, E1, kept_sizes_app by auto. now rewrite kept_sizes_full.
  - intros ix Hix. rewrite E1 in Hix. apply in_range_app_inv in Hix as (i1 & i2 & -> & H1 & H2).
    pose proof (in_range_length _ _ H1). pose proof (in_range_length _ _ H2).
    rewrite A by auto. rewrite (source_app ss n1) by auto. now rewrite source_full.
Qed.

Lemma no_fancy_adv pre : existsb fancy pre = false -> filter x_adv (map Plain pre) = [].
Proof.
  induction pre as [|i pre IH]; intros H; [reflexivity|]. cbn [existsb] in H. apply orb_false_iff in H as [H1 H2].
  cbn [map filter x_adv]. destruct i; cbn [is_adv]; try discriminate; now apply IH.
Qed.

Lemma plain_consumes pre : Forall plain_item pre -> x_specified (map Plain pre) = length pre.
Proof. intros H. rewrite plain_specified_x. now destruct (plain_specified _ H) as (-> & _). Qed.

Lemma plain_no_ell pre : Forall plain_item pre -> filter x_ell (map Plain pre) = [].
Proof. induction 1 as [|i l Hi H IH]; [reflexivity|]. destruct i; try contradiction; exact IH. Qed.

Lemma mask_then_app pre m : mask_then_basic (map Plain pre ++ [XMask m]) = false.
Proof.
  induction pre as [|i pre IH]; [|exact IH]. cbn. now rewrite andb_false_r.
Qed.

Lemma rank_0_app pre i : existsb rank_0 (map Plain pre ++ [i]) = rank_0 i.
Proof. induction pre as [|j pre IH]; [|exact IH]. cbn. now rewrite orb_false_r. Qed.

Lemma ell_positions_nil l : filter x_ell l = [] -> ell_positions l = [].
Proof. intros H. pose proof (ell_positions_length l) as L. rewrite H in L. destruct (ell_positions l); [reflexivity|discriminate]. Qed.

Lemma x_replace_none l nd : filter x_ell l = [] -> x_replace l nd = Ok l.
Proof. intros H. unfold x_replace, replace_first. now rewrite (ell_positions_nil l H). Qed.

Lemma x_describe_all_app nms a : forall d b,
  x_describe_all nms d (a ++ b) = do '(f, n) <- x_describe_all nms d a; do '(f', n') <- x_describe_all nms (d + length a) b; Ok (f ++ f', n ++ n').
Proof.
  induction a as [|i a IH]; intros d b; cbn [app x_describe_all length].
  - rewrite Nat.add_0_r. cbn [bind]. destruct (x_describe_all nms d b) as [[f n]|]; reflexivity.
  - destruct (x_describe nms d i) as [[f n]|]; [|reflexivity]. cbn [bind]. rewrite IH.
    destruct (x_describe_all nms (S d) a) as [[f1 n1]|]; [|reflexivity]. cbn [bind].
    replace (S d + length a)%nat with (d + S (length a))%nat by lia.
    destruct (x_describe_all nms (d + S (length a)) b) as [[f2 n2]|]; [|reflexivity]. cbn [bind]. now rewrite <- app_assoc.
Qed.

Lemma locations_app pre : forall k aff ds m, length aff = length pre -> (1 < ndim m)%nat ->
  mask_locations k (aff ++ [ds]) (map Plain pre ++ [XMask m]) = [((k + length pre)%nat, ds, m)].
Proof.
  induction pre as [|i pre IH]; intros k aff ds m L Hm.
  - destruct aff; [|discriminate]. cbn. rewrite Nat.add_0_r. destruct (ndim m) as [|[|n]]; try lia. reflexivity.
  - destruct aff as [|a aff]; [discriminate|]. cbn [app map mask_locations length]. simpl in L. rewrite IH by (auto; lia).
    f_equal. f_equal. f_equal. lia.
Qed.

Lemma nat_mem_In d l : nat_mem d l = true <-> In d l.
Proof.
  unfold nat_mem. rewrite existsb_exists. split.
  - intros (k & H & E). apply Nat.eqb_eq in E. now subst.
  - intros H. exists d. split; auto. apply Nat.eqb_refl.
Qed.

Lemma nat_mem_seq d a k : nat_mem d (seq a k) = Nat.leb a d && Nat.ltb d (a + k).
Proof.
  apply eq_true_iff_eq. rewrite nat_mem_In, in_seq. lia.
Qed.

Lemma x_indexed_app a b : x_indexed (a ++ b) = (x_indexed a + x_indexed b)%nat.
Proof. unfold x_indexed. now rewrite filter_app, app_length. Qed.

Lemma x_indexed_plain_items pre : Forall plain_item pre -> x_indexed (map Plain pre) = length pre.
Proof. intros H. rewrite x_indexed_plain. now apply number_of_indexed_plain. Qed.

(** determine_dims for a mask after plain items. *)
Lemma determine_mask nm1 ns nm3 n1 pre ss m : length nm1 = length n1 -> picks_all n1 pre ss -> length ns = ndim m -> (1 < ndim m)%nat ->
  exists aff, x_determine (nm1 ++ map Some ns ++ nm3) (XTuple (map Plain pre ++ [XMask m])) =
      Ok (map Plain pre ++ [XMask m], aff ++ [seq (length pre) (ndim m)], kept ss nm1 ++ Some (String.concat "_" ns) :: nm3, true) /\
    length aff = length pre /\
    forall d, nat_mem d (List.concat aff) = match nth_error pre d with Some i => negb (is_full_slice i) | None => false end.
Proof.
  intros L1 HP L2 Hm. destruct (picks_all_len _ _ _ HP) as [LP LS]. pose proof (picks_all_plain _ _ _ HP) as HPl.
  destruct (describe_items_ok pre [] nm1 (map Some ns ++ nm3) n1 ss L1 HP) as (a & A & B). cbn [app length] in A, B.
  pose proof (describe_restricts (nm1 ++ map Some ns ++ nm3) pre O) as R.
  unfold dname in *. rewrite A in R. destruct R as (aff & R & -> & La).
  exists aff. split; [|split; [exact La|]].
  2:{ intros d. rewrite B. rewrite Nat.sub_0_r. reflexivity. }
  cbn [x_determine]. rewrite x_replace_none.
  2:{ rewrite filter_app, plain_no_ell by auto. reflexivity. }
  cbn [bind]. rewrite x_describe_all_app, R. cbn [bind]. rewrite Nat.add_0_l. cbn [x_describe_all x_describe].
  replace (Nat.eqb (ndim m) 1) with false by (symmetry; apply Nat.eqb_neq; lia).
  assert (F : firstn (ndim m) (skipn (length pre) (nm1 ++ map Some ns ++ nm3)) = map Some ns).
  { rewrite LP, <- L1, skipn_len_app, <- L2. rewrite <- (map_length Some ns) at 1. apply firstn_len_app. }
  unfold dname in *. rewrite map_length, F, join_strings by (intros ->; simpl in L2; lia). cbn [bind]. rewrite rev_app_distr. cbn [rev app].
  f_equal. f_equal. f_equal. rewrite <- app_assoc. f_equal. cbn [app]. f_equal.
  rewrite x_indexed_app, x_indexed_plain_items by auto. cbn [x_indexed filter x_none negb length extra_dims].
  rewrite !app_length, map_length.
  replace (length nm1 + (length ns + length nm3) -
     Z.to_nat (Z.of_nat (length nm1 + (length ns + length nm3)) - Z.of_nat (length pre + 1) - (Z.of_nat (ndim m) - 1)))%nat
    with (length nm1 + length ns)%nat by lia.
  rewrite <- (map_length Some ns) at 1. rewrite <- app_length, app_assoc. apply skipn_len_app.
Qed.

Lemma pair_in_step c rs T ib sb il sl : picks (zlen rs) ib sb -> picks T il sl -> nonneg rs -> Forall (fun r => rlen r <= T) rs ->
  (sl = Full \/ exists mx, is_max_len (sel_rows sb rs) mx /\ sound_time T mx il) ->
  exists rs', index_pair (of_rows c rs) (bix ib) (lix il) = Ok (of_rows c rs') /\ sel_time (fancy il) sl (sel_rows sb rs) rs'.
Proof.
  intros PB PL Hnn Hfit HT. unfold index_pair. rewrite (batch_pick c rs _ _ PB). cbn [bind].
  assert (D : sl = Full \/ sl <> Full) by (destruct sl; [now left|right; discriminate|right; discriminate]).
  destruct D as [-> |N].
  - pose proof (proj1 (picks_full_iff _ _ _ PL) eq_refl) as Ef. unfold lix. rewrite Ef. cbn [index_length].
    eexists. split; reflexivity.
  - destruct HT as [HT|(mx & Hmax & Hs)]; [contradiction|].
    apply (time_pick c (sel_rows sb rs) T mx _ _ PL); auto; [now apply sel_rows_nonneg|].
    destruct Hmax as [(r & Hr & <-) _]. apply sel_rows_sub in Hr. rewrite Forall_forall in Hfit. auto.
Qed.

(** The item that acts on dimension [d] as far as the metadata are concerned. *)
Definition effective (pre : list item) (m : @tensor bool) (d : nat) : item :=
  if Nat.ltb d (length pre) then nth d pre INone
  else if Nat.ltb d (length pre + ndim m) then IMask (reduce_to d (length pre) (seq (length pre) (ndim m)) m)
  else all_item.

Lemma effective_picks n1 pre ss m n3 d n s : picks_all n1 pre ss -> nth_error (n1 ++ shp m ++ n3) d = Some n -> 0 <= n ->
  chosen ss m d s -> picks n (effective pre m d) s.
Proof.
  intros HP E Hn HC. destruct (picks_all_len _ _ _ HP) as [LP LS]. unfold effective, ndim.
  destruct HC as [H|qs H HT|H].
  - destruct (Nat.ltb_spec d (length pre)); [|lia]. rewrite nth_error_app1 in E by lia. now apply (picks_all_nth n1).
  - destruct (Nat.ltb_spec d (length pre)); [lia|]. destruct (Nat.ltb_spec d (length pre + length (shp m))); [|lia].
    rewrite nth_error_app2, nth_error_app1 in E by lia.
    destruct (reduce_to_spec m (length pre) d ltac:(unfold ndim; lia)) as [R1 R2]. unfold ndim in R1, R2.
    replace (d - length n1)%nat with (d - length pre)%nat in E by lia. replace (d - length ss)%nat with (d - length pre)%nat in HT by lia.
    assert (En : nth (d - length pre) (shp m) 0 = n) by now apply nth_error_nth.
    rewrite (touched_fun _ _ _ _ HT R2). constructor. rewrite R1; lia.
  - destruct (Nat.ltb_spec d (length pre)); [lia|]. destruct (Nat.ltb_spec d (length pre + length (shp m))); [lia|]. constructor.
Qed.

Section MaskGet.
Context {V : Type}.
Implicit Types (x y : @stensor V).

Lemma torch_mask (t : @tensor V) n1 n3 pre ss m : shp t = n1 ++ shp m ++ n3 -> Forall (fun n => 0 <= n) (shp t) ->
  picks_all n1 pre ss -> existsb fancy pre = false -> (1 < ndim m)%nat ->
  exists t', x_torch_getitem t (XTuple (map Plain pre ++ [XMask m])) = Ok t' /\
    (exists t1, selected t (ss ++ repeat Full (length (shp m ++ n3))) t1 /\ masked_out (length (kept_sizes ss n1)) m t1 t') /\
    shp t' = kept_sizes ss n1 ++ zlen (true_positions m) :: n3.
Proof.
  intros E Hn HP HF Hm. destruct (picks_all_len _ _ _ HP) as [LP LS]. pose proof (picks_all_plain _ _ _ HP) as HPl.
  unfold x_torch_getitem. cbv zeta. rewrite mask_then_app, rank_0_app. cbn [rank_0].
  replace (Nat.eqb (ndim m) 0) with false by (symmetry; apply Nat.eqb_neq; lia). cbn [orb].
  assert (SP : x_specified (map Plain pre ++ [XMask m]) = (length pre + ndim m)%nat).
  { unfold x_specified. rewrite map_app, list_sum_app. fold (x_specified (map Plain pre)). rewrite plain_consumes by auto. cbn. lia. }
  rewrite SP.
  replace (Nat.ltb (ndim t) (length pre + ndim m)) with false.
  2:{ symmetry. apply Nat.ltb_ge. unfold ndim at 2. rewrite E, !app_length. unfold ndim. lia. }
  rewrite filter_app, no_fancy_adv by auto. cbn [filter x_adv app length Nat.ltb Nat.leb].
  assert (Hn1 : Forall (fun n => 0 <= n) n1) by (rewrite E in Hn; apply Forall_app in Hn; tauto).
  destruct (x_apply_mid pre t [] n1 (shp m ++ n3) ss (ndim t - (length pre + ndim m)) [XMask m] E Hn1 HP) as (t1 & A & B & C).
  cbn [length app] in A, B, C. rewrite A. rewrite Nat.add_0_l. cbn [x_apply].
  destruct (in_place_mask t1 (length (kept_sizes ss n1)) (ndim t - (length pre + ndim m)) m (kept_sizes ss n1) n3 B eq_refl) as (t2 & A2 & B2 & C2).
  rewrite A2. cbn [bind]. exists t2. split; [reflexivity|]. split; [|exact C2]. exists t1. split; [|exact B2].
  apply (plain_selected t t1 n1 (shp m ++ n3)); auto. intros ib ic Hib. apply (C [] ib ic eq_refl Hib).
Qed.

Lemma getitem_mask x bd ld c rs T pre ss m ns nm1 nm3 n1 n3 sb sl :
  stream_ok x bd ld c rs T ->
  shp (tn x) = n1 ++ shp m ++ n3 -> names x = nm1 ++ map Some ns ++ nm3 -> length nm1 = length n1 -> length ns = length (shp m) ->
  (2 <= length (shp m))%nat -> picks_all n1 pre ss -> existsb fancy pre = false ->
  chosen ss m bd sb -> chosen ss m ld sl ->
  exists t' nn, nn = kept ss nm1 ++ Some (String.concat "_" ns) :: nm3 /\
    (exists t1, selected (tn x) (ss ++ repeat Full (length (shp m ++ n3))) t1 /\ masked_out (length (kept ss nm1)) m t1 t') /\
    ((length pre <= bd < length pre + length (shp m))%nat -> (length pre <= ld < length pre + length (shp m))%nat ->
      x_getitem x (XTuple (map Plain pre ++ [XMask m])) = Ok (OPlain t')) /\
    (~ ((length pre <= bd < length pre + length (shp m))%nat /\ (length pre <= ld < length pre + length (shp m))%nat) ->
     names_distinct nn ->
     (sl = Full \/ exists mx, is_max_len (sel_rows sb rs) mx /\
        ((ld < length pre)%nat /\ sound_time T mx (nth ld pre INone) \/ (length pre <= ld)%nat /\ sl <> Keep [])) ->
     exists rs', x_getitem x (XTuple (map Plain pre ++ [XMask m])) = Ok (OStream (mkSt t' nn (of_rows c rs'))) /\
       sel_time (Nat.leb (length pre) ld) sl (sel_rows sb rs) rs').
Proof.
  intros [HR HD Hn HB HL HBs HLs HM Hnn Hfit] E EN L1 L2 Hm HP HF CB CL.
  destruct (picks_all_len _ _ _ HP) as [LP LS].
  destruct (torch_mask (tn x) n1 n3 pre ss m E Hn HP HF Hm) as (t' & A & D & S).
  exists t', (kept ss nm1 ++ Some (String.concat "_" ns) :: nm3). split; [reflexivity|].
  split; [now rewrite (kept_length ss nm1 n1 L1)|].
  destruct (determine_mask nm1 ns nm3 n1 pre ss m L1 HP L2 Hm) as (aff & DD & La & Aff).
  unfold x_getitem. rewrite A, EN. cbn [bind]. unfold dname in *. rewrite DD. cbn [bind]. rewrite <- EN.
  unfold BATCH, LENGTH. rewrite (names_index_ok _ _ _ HB HD), (names_index_ok _ _ _ HL HD). cbn [bind].
  rewrite concat_app. cbn [List.concat]. rewrite app_nil_r, !nat_mem_app, !Aff, !nat_mem_seq.
  rewrite locations_app by (auto; lia). rewrite Nat.add_0_l. cbn [mask_indices]. rewrite !nat_mem_seq.
  unfold ndim in *.
  split.
  - intros HBu HLu.
    replace (Nat.leb (length pre) bd && Nat.ltb bd (length pre + length (shp m))) with true by lia.
    replace (Nat.leb (length pre) ld && Nat.ltb ld (length pre + length (shp m))) with true by lia.
    rewrite !orb_true_r. reflexivity.
  - intros Hnot Hdis HT.
    assert (Hb0 : 0 <= zlen rs) by apply zlen_nonneg.
    assert (HT0 : 0 <= T) by (rewrite Forall_forall in Hn; apply Hn; eapply nth_error_In; eauto).
    rewrite E in HBs, HLs.
    pose proof (effective_picks n1 pre ss m n3 bd _ sb HP HBs Hb0 CB) as PB.
    pose proof (effective_picks n1 pre ss m n3 ld _ sl HP HLs HT0 CL) as PL.
    assert (RN : refine_names (length (shp t')) (kept ss nm1 ++ Some (String.concat "_" ns) :: nm3) = Ok (kept ss nm1 ++ Some (String.concat "_" ns) :: nm3)).
    { unfold refine_names. rewrite S, !app_length. cbn [length]. rewrite (kept_length ss nm1 n1 L1).
      assert (L3 : length nm3 = length n3).
      { rewrite EN, E, !app_length, map_length in HR. lia. }
      rewrite L3, Nat.eqb_refl. apply names_dup_false in Hdis. unfold dname in *. rewrite Hdis. reflexivity. }
    unfold ndim in *. unfold dname in *. rewrite RN. cbn [bind].
    assert (ST : sl = Full \/ exists mx, is_max_len (sel_rows sb rs) mx /\ sound_time T mx (effective pre m ld)).
    { destruct HT as [HT|(mx & Hmax & HT)]; [now left|].
      destruct (Nat.lt_ge_cases ld (length pre)) as [Hl|Hl].
      - right. exists mx. split; [exact Hmax|]. destruct HT as [[_ HT]|[X _]]; [|lia].
        unfold effective. destruct (Nat.ltb_spec ld (length pre)); [exact HT|lia].
      - destruct HT as [[X _]|[_ HT]]; [lia|].
        unfold effective in *. destruct (Nat.ltb_spec ld (length pre)); [lia|].
        destruct (Nat.ltb_spec ld (length pre + ndim m)).
        + right. exists mx. split; [exact Hmax|]. cbn [sound_time].
          inversion PL as [| | | | | |b0 Hb0' Eb]; subst.
          destruct (mask_positions _) as [|q qs] eqn:EQ in HT; [congruence|].
          assert (Iq : In q (mask_positions (reduce_to ld (length pre) (seq (length pre) (ndim m)) m))) by (rewrite EQ; now left).
          unfold mask_positions in Iq. apply filter_In in Iq as [Iq1 Iq2].
          rewrite <- Iq2. apply nth_In. apply positions_spec in Iq1. unfold zlen in Iq1. lia.
        + left. remember all_item as ai eqn:Ea. unfold all_item in Ea. destruct PL; try discriminate; [reflexivity|]. injection Ea as -> ->. destruct H1; congruence. }
    destruct (pair_in_step c rs T _ sb _ sl PB PL Hnn Hfit ST) as (rs' & EP & ET).
    exists rs'. split.
    2:{ assert (FE : existsb fancy pre = false -> fancy (effective pre m ld) = Nat.leb (length pre) ld \/ fancy (effective pre m ld) = false).
        { intros HFp. unfold effective. destruct (Nat.ltb_spec ld (length pre)) as [Hl|Hl].
          - right. destruct (fancy (nth ld pre INone)) eqn:EF; auto. rewrite <- HFp. symmetry. apply existsb_exists.
            exists (nth ld pre INone). split; auto. now apply nth_In.
          - destruct (Nat.ltb ld (length pre + ndim m)); [left|right; reflexivity].
            symmetry. now apply Nat.leb_le. }
        destruct (FE HF) as [<-|FE']; [exact ET|]. rewrite FE' in ET. now apply sel_time_weaken. }
    assert (Fx : forall d, nth d (map Plain pre ++ [XMask m]) (Plain INone) = Plain (nth d pre INone) \/ (length pre <= d)%nat).
    { intros d. destruct (Nat.lt_ge_cases d (length pre)) as [Hd|Hd]; [left|now right].
      rewrite app_nth1 by (now rewrite map_length). apply nth_plain. }
    assert (Be : forall d, bix (effective pre m d) =
       if Nat.leb (length pre) d && Nat.ltb d (length pre + ndim m) then BMask (reduce_to d (length pre) (seq (length pre) (ndim m)) m)
       else if match nth_error pre d with Some i => negb (is_full_slice i) | None => false end
            then x_bidx (nth d (map Plain pre ++ [XMask m]) (Plain INone)) else BNone).
    { intros d. unfold effective. destruct (Nat.ltb_spec d (length pre)) as [Hd|Hd].
      - destruct (Nat.leb_spec (length pre) d); [lia|]. cbn [andb]. rewrite (nth_error_nth' pre INone) by auto.
        destruct (Fx d) as [->|]; [|lia]. cbn [x_bidx]. unfold bix. destruct (is_full_slice _); reflexivity.
      - destruct (Nat.leb_spec (length pre) d); [|lia]. cbn [andb]. rewrite (proj2 (nth_error_None pre d)) by auto.
        destruct (Nat.ltb d (length pre + ndim m)); reflexivity. }
    assert (Le : forall d, lix (effective pre m d) =
       if Nat.leb (length pre) d && Nat.ltb d (length pre + ndim m) then LMask (reduce_to d (length pre) (seq (length pre) (ndim m)) m)
       else if match nth_error pre d with Some i => negb (is_full_slice i) | None => false end
            then x_lidx (nth d (map Plain pre ++ [XMask m]) (Plain INone)) else LNone).
    { intros d. unfold effective. destruct (Nat.ltb_spec d (length pre)) as [Hd|Hd].
      - destruct (Nat.leb_spec (length pre) d); [lia|]. cbn [andb]. rewrite (nth_error_nth' pre INone) by auto.
        destruct (Fx d) as [->|]; [|lia]. cbn [x_lidx]. unfold lix. destruct (is_full_slice _); reflexivity.
      - destruct (Nat.leb_spec (length pre) d); [|lia]. cbn [andb]. rewrite (proj2 (nth_error_None pre d)) by auto.
        destruct (Nat.ltb d (length pre + ndim m)); reflexivity. }
    rewrite Be, Le in EP. unfold ndim in EP. rewrite HM.
    set (ub := Nat.leb (length pre) bd && Nat.ltb bd (length pre + length (shp m))) in *.
    set (ul := Nat.leb (length pre) ld && Nat.ltb ld (length pre + length (shp m))) in *.
    set (vb := match nth_error pre bd with Some i => negb (is_full_slice i) | None => false end) in *.
    set (vl := match nth_error pre ld with Some i => negb (is_full_slice i) | None => false end) in *.
    assert (Hub : ub && ul = false) by (unfold ub, ul; lia).
    clearbody ub ul vb vl.
    destruct ub, ul; try discriminate; rewrite ?orb_true_r, ?orb_false_r; cbn [orb negb].
    + rewrite EP. reflexivity.
    + rewrite EP. reflexivity.
    + destruct vb, vl; cbn [orb negb]; try (rewrite EP; reflexivity).
      unfold index_pair in EP. cbn [index_batch index_length bind] in EP. unfold clone in *. assert (EQ : of_rows c rs = of_rows c rs') by congruence. rewrite EQ. reflexivity.
Qed.

(** A mask on its own. *)
Lemma mask_single x m : length (names x) = length (shp (tn x)) -> (2 <= length (shp m))%nat ->
  x_getitem x (XSingle (XMask m)) = x_getitem x (XTuple [XMask m]).
Proof.
  intros HR Hm. unfold x_getitem.
  change (x_torch_getitem (tn x) (XTuple [XMask m])) with (x_torch_getitem (tn x) (XSingle (XMask m))).
  destruct (x_torch_getitem (tn x) (XSingle (XMask m))) as [t'|] eqn:A; [|reflexivity]. cbn [bind].
  assert (K : (ndim m <= length (names x))%nat).
  { unfold x_torch_getitem in A. cbv zeta in A. destruct (_ || _); [discriminate|].
    destruct (Nat.ltb_spec (ndim (tn x)) (x_specified [XMask m])) as [|G]; [discriminate|]. cbn in G. unfold ndim in *. lia. }
  cbn [x_determine]. rewrite x_replace_none by reflexivity. cbn [bind x_describe_single x_describe_all x_describe skipn].
  replace (Nat.eqb (ndim m) 1) with false by (symmetry; apply Nat.eqb_neq; unfold ndim; lia).
  destruct (join_dim_names (firstn (ndim m) (names x))) as [j|]; [|reflexivity]. cbn [bind app rev].
  cbn [x_indexed filter x_none negb length extra_dims].
  replace (length (names x) - Z.to_nat (Z.of_nat (length (names x)) - Z.of_nat 1 - (Z.of_nat (ndim m) - 1)))%nat with (ndim m) by lia.
  destruct (names_index (Some BATCH) (names x)) as [bd|]; [|reflexivity].
  destruct (names_index (Some LENGTH) (names x)) as [ld|]; [|reflexivity]. cbn [bind List.concat]. rewrite app_nil_r.
  cbn [mask_locations].
  replace (Nat.ltb 1 (ndim m)) with true by (symmetry; apply Nat.ltb_lt; unfold ndim; lia). cbn [mask_indices].
  destruct (nat_mem bd (seq 0 (ndim m))), (nat_mem ld (seq 0 (ndim m))); reflexivity.
Qed.

Lemma join_none l : In None l -> join_dim_names l = Err TypeError.
Proof.
  induction l as [|a l IH]; intros H; [destruct H|]. destruct a as [n|]; [|reflexivity].
  destruct H as [H|H]; [discriminate|]. destruct l as [|b l]; [destruct H|]. change (join_dim_names (Some n :: b :: l)) with (do s <- join_dim_names (b :: l); Ok (n ++ "_" ++ s)%string). rewrite (IH H). reflexivity.
Qed.

(** A mask over an unnamed dimension. *)
Lemma getitem_mask_unnamed x pre ss m nmm nm1 nm3 n1 n3 :
  Forall (fun n => 0 <= n) (shp (tn x)) ->
  shp (tn x) = n1 ++ shp m ++ n3 -> names x = nm1 ++ nmm ++ nm3 -> length nm1 = length n1 -> length nmm = length (shp m) ->
  (2 <= length (shp m))%nat -> picks_all n1 pre ss -> existsb fancy pre = false -> In None nmm ->
  x_getitem x (XTuple (map Plain pre ++ [XMask m])) = Err TypeError.
Proof.
  intros Hn E EN L1 L2 Hm HP HF HI. destruct (picks_all_len _ _ _ HP) as [LP LS]. pose proof (picks_all_plain _ _ _ HP) as HPl.
  destruct (torch_mask (tn x) n1 n3 pre ss m E Hn HP HF Hm) as (t' & A & _ & _).
  unfold x_getitem. rewrite A. cbn [bind x_determine]. rewrite x_replace_none.
  2:{ rewrite filter_app, plain_no_ell by auto. reflexivity. }
  cbn [bind]. rewrite x_describe_all_app.
  destruct (describe_items_ok pre [] nm1 (nmm ++ nm3) n1 ss L1 HP) as (a & A1 & B1). cbn [app length] in A1, B1.
  pose proof (describe_restricts (nm1 ++ nmm ++ nm3) pre O) as R. rewrite A1 in R. destruct R as (aff & R & -> & La).
  rewrite EN, R. cbn [bind]. rewrite Nat.add_0_l, map_length. cbn [x_describe_all x_describe].
  replace (Nat.eqb (ndim m) 1) with false by (symmetry; apply Nat.eqb_neq; unfold ndim; lia).
  assert (F : firstn (ndim m) (skipn (length pre) (nm1 ++ nmm ++ nm3)) = nmm).
  { rewrite LP, <- L1, skipn_len_app. unfold ndim. rewrite <- L2. apply firstn_len_app. }
  rewrite F, (join_none _ HI). reflexivity.
Qed.

End MaskGet.

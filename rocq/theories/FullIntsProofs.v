(** Proofs: what x[...] does when one item is an integer tensor of any rank. *)

From Coq Require Import String List ZArith Bool Lia.
From Coq Require Import ZifyBool.
From Verif Require Import Py Meta MetaSpec MetaProofs MetaLenProofs MetaSplitProofs MetaBatchProofs Named NamedSpec NamedProofs
  NamedSelProofs NamedIndexProofs NamedMetaProofs NamedGetProofs NamedShapeProofs Gather FullIndex FullIndexSpec FullIndexProofs FullRankProofs
  FullMaskProofs FullMaskGetProofs.
Import ListNotations.
Open Scope Z_scope.

Lemma entries_wrap_ok m n : entries_wrap m n = true <-> (forall p, in_range (shp m) p -> - n <= at_ m p < n).
Proof.
  unfold entries_wrap. rewrite forallb_forall. split.
  - intros H p Hp. specialize (H p (proj2 (all_positions_In _ _) Hp)). lia.
  - intros H p Hp. apply all_positions_In in Hp. specialize (H p Hp). lia.
Qed.

Lemma in_place_ints {V} (t : @tensor V) d gap m a n b : shp t = a ++ n :: b -> length a = d ->
  (forall p, in_range (shp m) p -> - n <= at_ m p < n) ->
  exists t', in_place t d gap (XInts m) = Ok (t', (d + ndim m)%nat) /\ shp t' = a ++ shp m ++ b /\
    forall ia ip ic, length ia = d -> length ip = ndim m -> at_ t' (ia ++ ip ++ ic) = at_ t (ia ++ wrap_neg n (at_ m ip) :: ic).
Proof.
  intros E <- H. destruct (size_here _ _ _ _ E) as [Es El]. unfold in_place. cbv zeta. rewrite El, Es.
  rewrite (proj2 (entries_wrap_ok m n) H). cbn [negb].
  eexists. split; [reflexivity|]. cbn [shp at_]. rewrite E, firstn_len_app.
  assert (S : skipn (S (length a)) (a ++ n :: b) = b).
  { rewrite app_snoc_assoc. replace (S (length a)) with (length (a ++ [n])) by (rewrite app_length; simpl; lia). apply skipn_len_app. }
  rewrite S. split; [reflexivity|].
  intros ia ip ic Hia Hip. rewrite <- Hia, firstn_len_app, skipn_len_app, <- Hip, firstn_len_app.
  rewrite <- app_length, app_assoc, skipn_len_app. unfold wrap, wrap_neg. now rewrite (Z.add_comm n).
Qed.

Lemma names_dup_nones a j b : names_dup (a ++ repeat None j ++ b) = names_dup (a ++ b).
Proof.
  assert (M : forall n a, names_mem (Some n) (a ++ repeat None j ++ b) = names_mem (Some n) (a ++ b)).
  { clear. intros n a. unfold names_mem. rewrite !existsb_app.
    assert (R : existsb (dname_eqb (Some n)) (repeat None j) = false) by (induction j; auto).
    unfold dname in *. now rewrite R. }
  induction a as [|x a IH].
  - cbn [app]. clear M. induction j as [|j IHj]; [reflexivity|]. exact IHj.
  - cbn [app names_dup]. rewrite IH. destruct x as [n|]; [|reflexivity]. now rewrite M.
Qed.

Lemma locations_ints m pre : forall post k aff, mask_locations k aff (map Plain pre ++ XInts m :: map Plain post) = [].
Proof.
  induction pre as [|i pre IH]; intros post k [|a aff]; try reflexivity; cbn [app map mask_locations].
  - apply locations_plain.
  - apply IH.
Qed.

Lemma no_ell_ints m pre post : Forall plain_item pre -> Forall plain_item post -> filter x_ell (map Plain pre ++ XInts m :: map Plain post) = [].
Proof. intros H1 H2. rewrite filter_app, plain_no_ell by auto. cbn. now apply plain_no_ell. Qed.

Lemma mask_then_ints m pre post : mask_then_basic (map Plain pre ++ XInts m :: map Plain post) = false.
Proof.
  induction pre as [|i pre IH]; [|exact IH]. cbn. apply plain_mask_then.
Qed.

Lemma rank_0_ints m pre post : (1 <= ndim m)%nat -> existsb rank_0 (map Plain pre ++ XInts m :: map Plain post) = false.
Proof.
  intros Hm. rewrite existsb_app. destruct (plain_mask_then pre) as [_ ->]. cbn [existsb rank_0 orb].
  destruct (plain_mask_then post) as [_ ->]. rewrite orb_false_r. apply Nat.eqb_neq. lia.
Qed.

Section Ints.
Context {V : Type}.
Implicit Types (x y : @stensor V).

Lemma torch_ints (t : @tensor V) n1 n n2 n3 pre post ss1 ss2 m :
  shp t = n1 ++ n :: n2 ++ n3 -> Forall (fun n => 0 <= n) (shp t) ->
  picks_all n1 pre ss1 -> picks_all n2 post ss2 -> existsb fancy pre = false -> existsb fancy post = false ->
  (1 <= ndim m)%nat -> (forall p, in_range (shp m) p -> - n <= at_ m p < n) ->
  exists t', x_torch_getitem t (XTuple (map Plain pre ++ XInts m :: map Plain post)) = Ok t' /\
    (exists t1, selected t (ss1 ++ Full :: ss2 ++ repeat Full (length n3)) t1 /\ looked_up (length (kept_sizes ss1 n1)) m t1 t') /\
    shp t' = kept_sizes ss1 n1 ++ shp m ++ kept_sizes ss2 n2 ++ n3.
Proof.
  intros E Hn HP1 HP2 HF1 HF2 Hm Hw.
  destruct (picks_all_len _ _ _ HP1) as [LP1 LS1]. pose proof (picks_all_plain _ _ _ HP1) as HPl1.
  destruct (picks_all_len _ _ _ HP2) as [LP2 LS2]. pose proof (picks_all_plain _ _ _ HP2) as HPl2.
  unfold x_torch_getitem. cbv zeta. rewrite mask_then_ints, rank_0_ints by auto. cbn [orb].
  assert (SP : x_specified (map Plain pre ++ XInts m :: map Plain post) = (length pre + S (length post))%nat).
  { change (map Plain pre ++ XInts m :: map Plain post) with (map Plain pre ++ [XInts m] ++ map Plain post).
    unfold x_specified. rewrite !map_app, !list_sum_app. fold (x_specified (map Plain pre)) (x_specified (map Plain post)).
    rewrite !plain_consumes by auto. reflexivity. }
  rewrite SP.
  replace (Nat.ltb (ndim t) (length pre + S (length post))) with false.
  2:{ symmetry. apply Nat.ltb_ge. unfold ndim. rewrite E, !app_length. cbn [length]. rewrite app_length. lia. }
  rewrite filter_app, no_fancy_adv by auto. cbn [filter x_adv app]. rewrite no_fancy_adv by auto. cbn [length Nat.ltb Nat.leb].
  set (gap := (ndim t - (length pre + S (length post)))%nat).
  assert (Hs : Forall (fun n => 0 <= n) n1 /\ 0 <= n /\ Forall (fun n => 0 <= n) n2).
  { rewrite E in Hn. apply Forall_app in Hn as [H1 H2]. inversion H2 as [|? ? H3 H4]; subst. apply Forall_app in H4 as [H4 _]. auto. }
  destruct Hs as (Hn1 & Hn0 & Hn2).
  destruct (x_apply_mid pre t [] n1 (n :: n2 ++ n3) ss1 gap (XInts m :: map Plain post) E Hn1 HP1) as (t1 & A & B & C).
  cbn [length app] in A, B, C. rewrite A. rewrite Nat.add_0_l. cbn [x_apply].
  destruct (in_place_ints t1 (length (kept_sizes ss1 n1)) gap m (kept_sizes ss1 n1) n (n2 ++ n3) B eq_refl Hw) as (t2 & A2 & B2 & C2).
  rewrite A2. cbn [bind].
  rewrite app_assoc in B2.
  destruct (x_apply_mid post t2 (kept_sizes ss1 n1 ++ shp m) n2 n3 ss2 gap [] B2 Hn2 HP2) as (t3 & A3 & B3 & C3).
  rewrite app_nil_r in A3. rewrite app_length in A3. unfold ndim. rewrite A3. cbn [x_apply]. exists t3. split; [reflexivity|].
  split; [|rewrite B3; now rewrite <- app_assoc].
  set (all := ss1 ++ Full :: ss2 ++ repeat Full (length n3)).
  exists (mkTn (kept_sizes all (shp t)) (fun ix => at_ t (source all ix))). split; [split; [reflexivity|intros ix _; reflexivity]|].
  assert (Ks : kept_sizes all (shp t) = kept_sizes ss1 n1 ++ n :: kept_sizes ss2 n2 ++ n3).
  { unfold all. rewrite E, kept_sizes_app by auto. cbn [kept_sizes]. rewrite kept_sizes_app by auto. now rewrite kept_sizes_full. }
  unfold looked_up. cbn [shp at_]. rewrite Ks.
  rewrite firstn_len_app, nth_app_here.
  assert (S : skipn (S (length (kept_sizes ss1 n1))) (kept_sizes ss1 n1 ++ n :: kept_sizes ss2 n2 ++ n3) = kept_sizes ss2 n2 ++ n3).
  { rewrite app_snoc_assoc. replace (S (length (kept_sizes ss1 n1))) with (length (kept_sizes ss1 n1 ++ [n])) by (rewrite app_length; simpl; lia). apply skipn_len_app. }
  rewrite S. split; [rewrite B3; now rewrite <- app_assoc|].
  intros ia ip ic Hia Hip Hr. rewrite B3, <- app_assoc in Hr.
  apply in_range_app_inv in Hr as (i1 & i2 & Ei & R1 & R2). apply in_range_app_inv in R2 as (i3 & i4 & -> & R3 & R4).
  apply in_range_app_inv in R4 as (i5 & i6 & -> & R5 & R6).
  pose proof (in_range_length _ _ R1) as Q1. pose proof (in_range_length _ _ R3) as Q3.
  pose proof (in_range_length _ _ R5) as Q5. pose proof (in_range_length _ _ R6) as Q6.
  assert (ia = i1 /\ ip = i3 /\ ic = i5 ++ i6) as (-> & -> & ->).
  { assert (X : ia = i1) by (apply (f_equal (firstn (length ia))) in Ei; rewrite firstn_len_app in Ei; replace (length ia) with (length i1) in Ei by lia; now rewrite firstn_len_app in Ei).
    subst i1. apply app_inv_head in Ei.
    assert (Y : ip = i3) by (apply (f_equal (firstn (length ip))) in Ei; rewrite firstn_len_app in Ei; replace (length ip) with (length i3) in Ei by lia; now rewrite firstn_len_app in Ei).
    subst i3. apply app_inv_head in Ei. auto. }
  rewrite app_assoc. rewrite C3 by (auto; rewrite !app_length; lia).
  rewrite <- app_assoc. rewrite C2 by (unfold ndim; lia).
  specialize (C [] i1 (wrap_neg n (at_ m i3) :: source ss2 i5 ++ i6) eq_refl R1). cbn [app] in C. rewrite C.
  unfold all. rewrite (source_app ss1 n1) by (auto; lia). cbn [source]. rewrite (source_app ss2 n2) by (auto; lia).
  now rewrite source_full by lia.
Qed.

Lemma determine_ints nm1 nm nm2 nm3 n1 n2 pre post ss1 ss2 m : length nm1 = length n1 -> length nm2 = length n2 ->
  picks_all n1 pre ss1 -> picks_all n2 post ss2 ->
  exists aff, x_determine (nm1 ++ nm :: nm2 ++ nm3) (XTuple (map Plain pre ++ XInts m :: map Plain post)) =
      Ok (map Plain pre ++ XInts m :: map Plain post, aff, kept ss1 nm1 ++ repeat None (ndim m - 1) ++ nm :: kept ss2 nm2 ++ nm3, true) /\
    forall d, nat_mem d (List.concat aff) =
      Nat.eqb d (length pre) || match nth_error (pre ++ all_item :: post) d with Some i => negb (is_full_slice i) | None => false end.
Proof.
  intros L1 L2 HP1 HP2.
  destruct (picks_all_len _ _ _ HP1) as [LP1 LS1]. pose proof (picks_all_plain _ _ _ HP1) as HPl1.
  destruct (picks_all_len _ _ _ HP2) as [LP2 LS2]. pose proof (picks_all_plain _ _ _ HP2) as HPl2.
  set (N := nm1 ++ nm :: nm2 ++ nm3).
  destruct (describe_items_ok pre [] nm1 (nm :: nm2 ++ nm3) n1 ss1 L1 HP1) as (a1 & A1 & B1). cbn [app length] in A1, B1. fold N in A1.
  pose proof (describe_restricts N pre O) as R1. rewrite A1 in R1. destruct R1 as (aff1 & R1 & -> & La1).
  destruct (describe_items_ok post (nm1 ++ [nm]) nm2 nm3 n2 ss2 L2 HP2) as (a2 & A2 & B2).
  rewrite <- app_assoc in A2. cbn [app] in A2. fold N in A2.
  assert (LN : length (nm1 ++ [nm]) = S (length pre)) by (rewrite app_length; simpl; lia). rewrite LN in A2, B2.
  pose proof (describe_restricts N post (S (length pre))) as R2. rewrite A2 in R2. destruct R2 as (aff2 & R2 & -> & La2).
  exists (aff1 ++ [length pre] :: aff2). split.
  - cbn [x_determine]. rewrite x_replace_none by (now apply no_ell_ints). cbn [bind]. rewrite x_describe_all_app, R1. cbn [bind].
    rewrite Nat.add_0_l, map_length. cbn [x_describe_all x_describe].
    assert (NA : name_at N (length pre) = Ok nm).
    { unfold name_at, N. rewrite nth_error_app2 by lia. replace (length pre - length nm1)%nat with O by lia. reflexivity. }
    rewrite NA. cbn [bind]. rewrite R2. cbn [bind].
    assert (EX : exists last r, rev (map Plain pre ++ XInts m :: map Plain post) = last :: r /\ extra_dims last = 0).
    { destruct (rev (map Plain pre ++ XInts m :: map Plain post)) as [|last r] eqn:ER.
      - apply (f_equal (@rev _)) in ER. rewrite rev_involutive in ER. destruct pre; discriminate.
      - exists last, r. split; [reflexivity|]. assert (I : In last (map Plain pre ++ XInts m :: map Plain post)).
        { apply in_rev. rewrite ER. now left. }
        apply in_app_or in I as [I|[<-|I]]; [|reflexivity|]; apply in_map_iff in I as (i & <- & _); reflexivity. }
    destruct EX as (last & r & -> & ->).
    f_equal. f_equal. f_equal. rewrite <- !app_assoc. f_equal. f_equal. cbn [app]. f_equal. f_equal.
    change (map Plain pre ++ XInts m :: map Plain post) with (map Plain pre ++ [XInts m] ++ map Plain post).
    rewrite !x_indexed_app, !x_indexed_plain_items by auto. cbn [x_indexed filter x_none negb length].
    assert (LL : length N = (length pre + S (length post + length nm3))%nat).
    { unfold N. rewrite app_length. cbn [length]. rewrite app_length. lia. }
    rewrite LL.
    replace (length pre + S (length post + length nm3) -
       Z.to_nat (Z.of_nat (length pre + S (length post + length nm3)) - Z.of_nat (length pre + (1 + length post)) - 0))%nat
      with (length ((nm1 ++ [nm]) ++ nm2)) by (rewrite !app_length; simpl; lia).
    unfold N. replace (nm1 ++ nm :: nm2 ++ nm3) with (((nm1 ++ [nm]) ++ nm2) ++ nm3) by (now rewrite <- !app_assoc). now rewrite skipn_len_app.
  - intros d. rewrite concat_app. cbn [List.concat]. rewrite !nat_mem_app, B1, B2. rewrite Nat.sub_0_r. cbn [nat_mem existsb].
    rewrite orb_false_r. change (Nat.leb 0 d) with true. cbn [andb].
    destruct (Nat.lt_trichotomy d (length pre)) as [H|[H|H]].
    + rewrite (nth_error_app1 pre) by auto. replace (Nat.leb (S (length pre)) d) with false by (symmetry; apply Nat.leb_gt; lia).
      replace (Nat.eqb d (length pre)) with false by (symmetry; apply Nat.eqb_neq; lia). cbn [orb andb]. now rewrite ?orb_false_r.
    + subst d. rewrite Nat.eqb_refl. now rewrite orb_true_r.
    + rewrite nth_error_app2 by lia. replace (nth_error pre d) with (@None item) by (symmetry; apply nth_error_None; lia).
      replace (Nat.eqb d (length pre)) with false by (symmetry; apply Nat.eqb_neq; lia).
      replace (Nat.leb (S (length pre)) d) with true by (symmetry; apply Nat.leb_le; lia). cbn [orb andb].
      replace (d - length pre)%nat with (S (d - S (length pre))) by lia. reflexivity.
Qed.

Lemma ints_names ss1 nm1 j nm ss2 nm2 nm3 : length ss1 = length nm1 -> length ss2 = length nm2 ->
  names_distinct (nm1 ++ nm :: nm2 ++ nm3) -> names_dup (kept ss1 nm1 ++ repeat None j ++ nm :: kept ss2 nm2 ++ nm3) = false.
Proof.
  intros L1 L2 H. rewrite names_dup_nones. apply names_dup_false in H.
  apply (kept_dup (ss1 ++ Full :: ss2 ++ repeat Full (length nm3))) in H.
  rewrite kept_app in H by auto. cbn [kept] in H. rewrite kept_app in H by auto. now rewrite kept_full in H.
Qed.

Lemma nth_ints pre post m d : d <> length pre -> nth d (map Plain pre ++ XInts m :: map Plain post) (Plain INone) = Plain (nth d (pre ++ all_item :: post) INone).
Proof.
  intros N. destruct (Nat.lt_ge_cases d (length pre)) as [H|H].
  - rewrite !app_nth1 by (rewrite ?map_length; auto). apply nth_plain.
  - rewrite !app_nth2 by (rewrite ?map_length; auto). rewrite map_length.
    destruct (d - length pre)%nat eqn:E; [lia|]. cbn [nth]. apply nth_plain.
Qed.

Lemma getitem_ints x bd ld c rs T pre post ss1 ss2 m nm1 nm nm2 nm3 n1 n n2 n3 :
  stream_ok x bd ld c rs T ->
  shp (tn x) = n1 ++ n :: n2 ++ n3 -> names x = nm1 ++ nm :: nm2 ++ nm3 -> length nm1 = length n1 -> length nm2 = length n2 ->
  picks_all n1 pre ss1 -> picks_all n2 post ss2 -> existsb fancy pre = false -> existsb fancy post = false ->
  (1 <= length (shp m))%nat -> (forall p, in_range (shp m) p -> - n <= at_ m p < n) ->
  ((bd = length pre \/ ld = length pre) -> (2 <= length (shp m))%nat ->
    exists e, x_getitem x (XTuple (map Plain pre ++ XInts m :: map Plain post)) = Err e) /\
  (bd <> length pre -> ld <> length pre ->
    forall ss, ss = ss1 ++ Full :: ss2 ++ repeat Full (length n3) ->
    (nth ld ss Full = Full \/
      exists mx, is_max_len (sel_rows (nth bd ss Full) rs) mx /\ sound_time T mx (nth ld (pre ++ all_item :: post) all_item)) ->
    exists y t1 rs', x_getitem x (XTuple (map Plain pre ++ XInts m :: map Plain post)) = Ok (OStream y) /\
      names y = kept ss1 nm1 ++ repeat None (length (shp m) - 1) ++ nm :: kept ss2 nm2 ++ nm3 /\
      selected (tn x) ss t1 /\ looked_up (length (kept ss1 nm1)) m t1 (tn y) /\
      smeta y = of_rows c rs' /\ sel_time false (nth ld ss Full) (sel_rows (nth bd ss Full) rs) rs').
Proof.
  intros [HR HD Hn HB HL HBs HLs HM Hnn Hfit] E EN L1 L2 HP1 HP2 HF1 HF2 Hm Hw.
  destruct (picks_all_len _ _ _ HP1) as [LP1 LS1]. destruct (picks_all_len _ _ _ HP2) as [LP2 LS2].
  destruct (torch_ints (tn x) n1 n n2 n3 pre post ss1 ss2 m E Hn HP1 HP2 HF1 HF2 Hm Hw) as (t' & A & (t1 & D1 & D2) & S).
  destruct (determine_ints nm1 nm nm2 nm3 n1 n2 pre post ss1 ss2 m L1 L2 HP1 HP2) as (aff & DD & Aff).
  assert (L3 : length nm3 = length n3).
  { rewrite EN, E, !app_length in HR. cbn [length] in HR. rewrite !app_length in HR. lia. }
  assert (RN : refine_names (ndim t') (kept ss1 nm1 ++ repeat None (ndim m - 1) ++ nm :: kept ss2 nm2 ++ nm3) =
               Ok (kept ss1 nm1 ++ repeat None (ndim m - 1) ++ nm :: kept ss2 nm2 ++ nm3)).
  { unfold refine_names. rewrite ints_names by (try lia; now rewrite <- EN).
    assert (LL : length (kept ss1 nm1 ++ repeat None (ndim m - 1) ++ nm :: kept ss2 nm2 ++ nm3) = ndim t').
    { unfold ndim. rewrite S, !app_length, repeat_length. cbn [length]. rewrite app_length.
      rewrite (kept_length ss1 nm1 n1 L1), (kept_length ss2 nm2 n2 L2). unfold ndim. lia. }
    rewrite LL, Nat.eqb_refl. reflexivity. }
  unfold x_getitem. rewrite A, EN. cbn [bind]. rewrite DD. cbn [bind]. rewrite <- EN.
  unfold BATCH, LENGTH. rewrite (names_index_ok _ _ _ HB HD), (names_index_ok _ _ _ HL HD). cbn [bind].
  rewrite locations_ints. cbn [mask_indices]. rewrite !Aff, RN. cbn [bind]. split.
  - intros H H2.
    assert (EE : forall b l, (bd = length pre -> b = BNd) -> (ld = length pre -> l = LNd) -> exists e,
       (do m' <- index_pair (smeta x) b l;
        Ok (OStream (mkSt t' (kept ss1 nm1 ++ repeat None (ndim m - 1) ++ nm :: kept ss2 nm2 ++ nm3) m'))) = Err e).
    { intros b l Hb Hl. unfold index_pair. destruct H as [H|H].
      - rewrite (Hb H). cbn [index_batch bind]. eexists; reflexivity.
      - rewrite (Hl H). destruct (index_batch (smeta x) b) as [m1|e]; cbn [bind index_length]; eexists; reflexivity. }
    assert (ONE : (Nat.eqb bd (length pre) || Nat.eqb ld (length pre)) = true).
    { destruct H as [-> | ->]; rewrite Nat.eqb_refl; auto using orb_true_r. }
    match goal with |- context [if negb ?b then _ else _] => assert (Z : b = true) end.
    { apply orb_true_iff in ONE as [-> | ->]; cbn [orb]; auto. now rewrite orb_true_r. }
    rewrite Z. cbn [negb]. apply EE.
    + intros ->. rewrite Nat.eqb_refl. cbn [orb]. rewrite app_nth2, map_length, Nat.sub_diag by (rewrite map_length; lia). cbn [nth x_bidx].
      destruct (Nat.eqb_spec (ndim m) 1) as [X|X]; [unfold ndim in X; lia|reflexivity].
    + intros ->. rewrite Nat.eqb_refl. cbn [orb]. rewrite app_nth2, map_length, Nat.sub_diag by (rewrite map_length; lia). cbn [nth x_lidx].
      destruct (Nat.eqb_spec (ndim m) 1) as [X|X]; [unfold ndim in X; lia|reflexivity].
  - intros NB NL ss Ess HT.
    assert (EF : forall d nd, d <> length pre -> nth_error (shp (tn x)) d = Some nd ->
              picks nd (nth d (pre ++ all_item :: post) all_item) (nth d ss Full)).
    { intros d nd Nd Hd. rewrite E in Hd. rewrite Ess. destruct (Nat.lt_ge_cases d (length pre)) as [H|H].
      - rewrite !app_nth1 by lia. rewrite nth_error_app1 in Hd by lia. rewrite (nth_indep _ all_item INone) by auto. now apply (picks_all_nth n1).
      - rewrite !app_nth2 by lia. rewrite nth_error_app2 in Hd by lia. rewrite LS1, LP1 in *.
        destruct (d - length n1)%nat as [|q] eqn:Eq; [lia|]. cbn [nth nth_error] in *.
        destruct (Nat.lt_ge_cases q (length n2)) as [H2|H2].
        + rewrite nth_error_app1 in Hd by lia. rewrite app_nth1 by lia.
          rewrite (nth_indep _ all_item INone) by lia. now apply (picks_all_nth n2).
        + rewrite (nth_overflow post) by lia. rewrite app_nth2 by lia. rewrite nth_repeat. constructor. }
    assert (PB := EF bd _ NB HBs). assert (PL := EF ld _ NL HLs).
    destruct (pair_in_step c rs T _ _ _ _ PB PL Hnn Hfit HT) as (rs' & EP & ET).
    assert (FN : fancy (nth ld (pre ++ all_item :: post) all_item) = false).
    { destruct (nth_in_or_default ld (pre ++ all_item :: post) all_item) as [Hj|Hj]; [|rewrite Hj; reflexivity].
      destruct (fancy (nth ld (pre ++ all_item :: post) all_item)) eqn:EF'; auto.
      apply in_app_or in Hj as [Hj|[Hj|Hj]].
      - rewrite <- HF1. symmetry. apply existsb_exists. eauto.
      - rewrite <- EF', <- Hj. reflexivity.
      - rewrite <- HF2. symmetry. apply existsb_exists. eauto. }
    rewrite FN in ET.
    assert (Eq : forall d, d <> length pre -> Nat.eqb d (length pre) = false) by (intros; now apply Nat.eqb_neq).
    rewrite !Eq by auto. cbn [orb].
    rewrite !nth_ints by auto. cbn [x_bidx x_lidx].
    assert (Sb : forall d, match nth_error (pre ++ all_item :: post) d with Some i => negb (is_full_slice i) | None => false end =
                 negb (is_full_slice (nth d (pre ++ all_item :: post) all_item))).
    { intros d. destruct (nth_error (pre ++ all_item :: post) d) as [i|] eqn:Ed.
      - now rewrite (nth_error_nth _ _ all_item Ed).
      - apply nth_error_None in Ed. now rewrite nth_overflow by auto. }
    assert (In' : forall d, is_full_slice (nth d (pre ++ all_item :: post) all_item) = false ->
                 nth d (pre ++ all_item :: post) INone = nth d (pre ++ all_item :: post) all_item).
    { intros d Hd. destruct (Nat.lt_ge_cases d (length (pre ++ all_item :: post))) as [H|H]; [now apply nth_indep|].
      rewrite (nth_overflow _ all_item) in Hd by auto. discriminate. }
    rewrite !Sb. rewrite HM. unfold bix, lix in EP.
    assert (G : (if negb (negb (is_full_slice (nth bd (pre ++ all_item :: post) all_item)) || negb (is_full_slice (nth ld (pre ++ all_item :: post) all_item)))
      then Ok (OStream (mkSt t' (kept ss1 nm1 ++ repeat None (ndim m - 1) ++ nm :: kept ss2 nm2 ++ nm3) (clone (of_rows c rs))))
      else do m' <- index_pair (of_rows c rs)
             (if negb (is_full_slice (nth bd (pre ++ all_item :: post) all_item)) then to_bidx (nth bd (pre ++ all_item :: post) INone) else BNone)
             (if negb (is_full_slice (nth ld (pre ++ all_item :: post) all_item)) then to_lidx (nth ld (pre ++ all_item :: post) INone) else LNone);
           Ok (OStream (mkSt t' (kept ss1 nm1 ++ repeat None (ndim m - 1) ++ nm :: kept ss2 nm2 ++ nm3) m')))
      = Ok (OStream (mkSt t' (kept ss1 nm1 ++ repeat None (ndim m - 1) ++ nm :: kept ss2 nm2 ++ nm3) (of_rows c rs')))).
    { pose proof (In' bd) as Ib. pose proof (In' ld) as Il.
      destruct (is_full_slice (nth bd (pre ++ all_item :: post) all_item)) eqn:Fb, (is_full_slice (nth ld (pre ++ all_item :: post) all_item)) eqn:Fl; cbn [negb orb].
      - unfold index_pair in EP. cbn [index_batch index_length bind] in EP. unfold clone in *. congruence.
      - rewrite (Il eq_refl), EP. reflexivity.
      - rewrite (Ib eq_refl), EP. reflexivity.
      - rewrite (Ib eq_refl), (Il eq_refl), EP. reflexivity. }
    eexists. exists t1, rs'. split; [exact G|]. cbn [names tn smeta].
    split; [reflexivity|]. split; [rewrite Ess; exact D1|]. split; [now rewrite (kept_length ss1 nm1 n1 L1)|]. split; [reflexivity|exact ET].
Qed.

End Ints.

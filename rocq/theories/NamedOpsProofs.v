(** Proofs about index_select, drop_empty, unsqueeze and squeeze. *)

From Coq Require Import String List ZArith Bool Lia.
From Coq Require Import ZifyBool.
From Verif Require Import Py Meta MetaSpec MetaProofs MetaLenProofs MetaSplitProofs MetaBatchProofs Named NamedSpec
  NamedProofs NamedSelProofs NamedIndexProofs NamedMetaProofs NamedGetProofs.
From Verif Require LazyProofs LazyCohProofs.
Import ListNotations.
Open Scope Z_scope.

Lemma rename_ok nd l : length l = nd -> names_distinct l -> rename nd l = Ok l.
Proof.
  intros H D. unfold rename. destruct l as [|a l].
  - simpl in H. subst. reflexivity.
  - unfold refine_names. apply names_dup_false in D. rewrite D.
    replace (Nat.eqb (length (a :: l)) nd) with true by (symmetry; now apply Nat.eqb_eq). reflexivity.
Qed.

Lemma map_wrap_nonneg n l : Forall (fun i => 0 <= i < n) l -> map (fun i => if i <? 0 then i + n else i) l = l.
Proof.
  induction 1 as [|i l H _ IH]; [reflexivity|]. cbn [map]. rewrite IH. replace (i <? 0) with false by lia. reflexivity.
Qed.

Lemma map_wrap_neg_nonneg n l : Forall (fun i => 0 <= i < n) l -> map (wrap_neg n) l = l.
Proof.
  intros H. rewrite <- (map_wrap_nonneg n l H) at 2. apply map_ext. intros i. unfold wrap_neg.
  destruct (i <? 0); lia.
Qed.

Section Ops.
Context {V : Type}.
Implicit Types x y : @stensor V.

Lemma take_ndim (t : @tensor V) k ps : ndim (t_take t k ps) = ndim t.
Proof. unfold ndim. cbn. now rewrite LazyProofs.length_list_set. Qed.

Lemma index_select_in_step x bd ld c rs T k n l :
  stream_ok x bd ld c rs T -> nth_error (shp (tn x)) k = Some n -> Forall (fun i => 0 <= i < n) l ->
  (k = ld -> rs <> [] /\ l <> [] /\ ascending l) ->
  exists y, index_select x (Z.of_nat k) (IxVec l) = Ok y /\
            in_step x bd ld c rs true (dim_sel (ndim (tn x)) k (Keep l)) y.
Proof.
  intros [HR HD Hn HB HL HBs HLs HM Hnn Hfit] HK Hl Hlen.
  assert (Hk : (k < ndim (tn x))%nat). { apply nth_error_Some. unfold ndim. congruence. }
  destruct (nth_error (names x) k) as [nm|] eqn:Enm.
  2:{ apply nth_error_None in Enm. unfold ndim in Hk. lia. }
  assert (Nbl : ld <> bd). { intros ->. rewrite HB in HL. discriminate HL. }
  unfold index_select, BATCH, LENGTH.
  rewrite (proj2 (norm_dim_denotes _ _ k)) by (split; auto). cbn [bind].
  assert (Ez : size (tn x) k = n) by (unfold size; now apply nth_error_nth).
  unfold torch_index_select. rewrite Ez. cbn [ivec_list].
  replace (forallb (fun k0 => (0 <=? k0) && (k0 <? n)) l) with true.
  2:{ symmetry. apply forallb_forall. rewrite Forall_forall in Hl. intros i Hi. specialize (Hl i Hi). lia. }
  cbn [bind]. rewrite (names_index_ok _ _ _ HB HD). cbn [bind].
  rewrite take_ndim. rewrite (rename_ok (ndim (tn x)) (names x)) by auto.
  pose proof (take_selected (tn x) k n l HK) as HS.
  assert (HKn : kept (dim_sel (ndim (tn x)) k (Keep l)) (names x) = names x) by (rewrite (dim_sel_kept _ _ _ _ nm); auto).
  destruct (Nat.eq_dec k bd) as [->|Nb].
  - rewrite Z.eqb_refl. rewrite HM.
    assert (ET : n = zlen rs) by congruence. subst n. rewrite ET in Hl.
    pose proof (batch_pick c rs (ITen l) (Keep (map (fun i => if i <? 0 then i + zlen rs else i) l))) as P.
    cbn [bix is_full_slice to_bidx sel_rows] in P. unfold bix in P. cbn [is_full_slice to_bidx] in P. rewrite map_wrap_nonneg in P by auto. rewrite P.
    2:{ rewrite <- (map_wrap_nonneg (zlen rs) l) at 2 by auto. apply P_ten. eapply Forall_impl; [|exact Hl]. cbn; lia. }
    cbn [bind]. eexists. split; [reflexivity|]. split; [cbn; now rewrite HKn|]. split; [exact HS|].
    cbn [smeta]. eexists. split; [reflexivity|]. rewrite !nth_dim_sel by auto. rewrite Nat.eqb_refl.
    replace (Nat.eqb ld bd) with false by (symmetry; now apply Nat.eqb_neq). reflexivity.
  - replace (Z.of_nat k =? Z.of_nat bd) with false by lia.
    rewrite (names_index_ok _ _ _ HL HD). cbn [bind].
    destruct (Nat.eq_dec k ld) as [->|Nl].
    + rewrite Z.eqb_refl. destruct Hlen as (Hne & Hl0 & Ha); [reflexivity|].
      assert (ET : n = T) by congruence. subst n. rewrite ET in Hl.
      rewrite HM. unfold index_pair. rewrite index_batch_full. cbn [bind].
      destruct (max_length_exists c rs Hne) as (mx & _ & Hmax).
      destruct (time_pick c rs T mx (ITen l) (Keep (map (fun i => if i <? 0 then i + T else i) l)))
        as (rs' & E1 & E2); auto.
      { apply P_ten. eapply Forall_impl; [|exact Hl]. cbn; lia. } { discriminate. }
      { destruct Hmax as [(r & Hr & <-) _]. rewrite Forall_forall in Hfit. auto. }
      { cbn. split; [exact Hl0|]. split; [left; eapply Forall_impl; [|exact Hl]; cbn; lia|].
        now rewrite map_wrap_neg_nonneg. }
      unfold lix in E1. cbn [is_full_slice to_lidx] in E1. rewrite E1. cbn [bind].
      eexists. split; [reflexivity|]. split; [cbn; now rewrite HKn|]. split; [exact HS|].
      cbn [smeta]. exists rs'. split; [reflexivity|]. rewrite !nth_dim_sel by auto. rewrite Nat.eqb_refl.
      replace (Nat.eqb bd ld) with false by (symmetry; apply Nat.eqb_neq; auto). cbn [sel_rows].
      rewrite map_wrap_nonneg in E2 by auto. exact E2.
    + replace (Z.of_nat k =? Z.of_nat ld) with false by lia. cbn [bind].
      eexists. split; [reflexivity|]. split; [cbn; now rewrite HKn|]. split; [exact HS|].
      cbn [smeta]. exists rs. split; [exact HM|]. rewrite !nth_dim_sel by auto.
      replace (Nat.eqb ld k) with false by (symmetry; apply Nat.eqb_neq; auto).
      replace (Nat.eqb bd k) with false by (symmetry; apply Nat.eqb_neq; auto). reflexivity.
Qed.

(** A negative dimension never reaches the metadata. *)
Lemma index_select_negative x d v y : d < 0 -> index_select x d v = Ok y -> smeta y = smeta x.
Proof.
  intros Hd. unfold index_select.
  destruct (norm_dim _ _); [|discriminate]. cbn [bind].
  destruct (torch_index_select _ _ _); [|discriminate]. cbn [bind].
  destruct (names_index (Some BATCH) (names x)) as [bd|]; [|discriminate]. cbn [bind].
  replace (d =? Z.of_nat bd) with false by lia.
  destruct (names_index (Some LENGTH) (names x)) as [ld|]; [|discriminate]. cbn [bind].
  replace (d =? Z.of_nat ld) with false by lia. cbn [bind].
  destruct (rename _ _); [|discriminate]. cbn [bind]. intros E. injection E as <-. reflexivity.
Qed.

(* ---------- drop_empty ---------- *)

Lemma lens_nonzero c rs : nonneg rs -> map (fun n => negb (n =? 0)) (lens (of_rows c rs)) = map nonempty rs.
Proof.
  intros H. cbn [lens of_rows]. rewrite map_map. apply map_ext_in. intros r Hr. unfold nonempty.
  unfold nonneg in H. rewrite Forall_forall in H. specialize (H r Hr). cbn in H. lia.
Qed.

Lemma mask_filter rs : at_positions rs (nonempty_at rs) = filter nonempty rs.
Proof.
  unfold nonempty_at. rewrite at_positions_mask by apply map_length.
  unfold masked. induction rs as [|r rs IH]; [reflexivity|]. cbn. destruct (nonempty r); cbn; [f_equal|]; exact IH.
Qed.

Lemma nonempty_at_range rs : forall p, In p (nonempty_at rs) -> 0 <= p < zlen rs.
Proof.
  intros p Hp. unfold nonempty_at, mask_positions in Hp. apply filter_In in Hp as [Hp _].
  unfold positions in Hp. apply in_map_iff in Hp as (q & <- & Hq). apply in_seq in Hq. unfold zlen in *.
  rewrite map_length in Hq. lia.
Qed.

Lemma mask_length_filter rs : length (nonempty_at rs) = length (filter nonempty rs).
Proof.
  rewrite <- mask_filter. unfold at_positions.
  assert (G : forall ps, (forall p, In p ps -> 0 <= p < zlen rs) ->
     length ps = length (flat_map (fun p => match nth_error rs (Z.to_nat p) with Some a => [a] | None => [] end) ps)).
  { induction ps as [|p ps IH]; intros H; [reflexivity|]. cbn [flat_map]. rewrite app_length, <- IH by (intros; apply H; now right).
    destruct (nth_error rs (Z.to_nat p)) eqn:Ep; [reflexivity|]. apply nth_error_None in Ep.
    specialize (H p (or_introl eq_refl)). unfold zlen in H. lia. }
  apply G. apply nonempty_at_range.
Qed.

Lemma min_length_exists c rs : rs <> [] ->
  exists mn, min_length (of_rows c rs) = Ok mn /\ (exists r, In r rs /\ rlen r = mn) /\ (forall r, In r rs -> mn <= rlen r).
Proof.
  destruct rs as [|r rs]; [congruence|]; intros _. unfold min_length; simpl.
  destruct (LazyCohProofs.In_zfold_min (map rlen rs) (rlen r)) as [H1 H2].
  change (rlen r :: map rlen rs) with (map rlen (r :: rs)) in *.
  eexists; split; [reflexivity|]. apply in_map_iff in H1 as (q & E & Hq). split; [eauto|].
  intros q' Hq'. apply H2. now apply in_map.
Qed.

Lemma drop_empty_cases x bd ld c rs T : stream_ok x bd ld c rs T -> rs <> [] ->
  (Forall (fun r => 0 < rlen r) rs -> st_drop_empty x = Ok (Some x)) /\
  (Forall (fun r => rlen r = 0) rs -> st_drop_empty x = Ok None) /\
  (~ Forall (fun r => 0 < rlen r) rs -> (2 <= length (filter nonempty rs))%nat ->
     exists y, st_drop_empty x = Ok (Some y) /\
       in_step x bd ld c rs true (dim_sel (ndim (tn x)) bd (Keep (nonempty_at rs))) y /\
       smeta y = of_rows c (filter nonempty rs)) /\
  (~ Forall (fun r => 0 < rlen r) rs -> length (filter nonempty rs) = 1%nat -> st_drop_empty x = Err TypeError).
Proof.
  intros SO Hne. pose proof SO as [HR HD Hn HB HL HBs HLs HM Hnn Hfit].
  destruct (min_length_exists c rs Hne) as (mn & En & (rn & In1 & Ern) & Hmn).
  destruct (max_length_exists c rs Hne) as (mx & Ex & [(rx & Ix1 & Erx) Hmx]).
  unfold nonneg in Hnn. pose proof Hnn as Hnn'. rewrite Forall_forall in Hnn'.
  assert (K : forall k, length (filter nonempty rs) = k -> ~ Forall (fun r => 0 < rlen r) rs -> (1 <= k)%nat ->
     (mn >? 0) = false /\ (mx =? 0) = false /\ (meta_len (of_rows c rs) =? 1) = false).
  { intros k Ek Hnot Hk.
    assert (Z0 : mn = 0).
    { destruct (Z.eq_dec mn 0); auto. exfalso. apply Hnot. apply Forall_forall. intros r Hr.
      specialize (Hmn r Hr). specialize (Hnn' rn In1). cbn in Hnn'. lia. }
    destruct (filter nonempty rs) as [|q l] eqn:Ef; [cbn in Ek; lia|].
    assert (Hq : In q (filter nonempty rs)) by (rewrite Ef; now left). apply filter_In in Hq as [Hq1 Hq2].
    unfold nonempty in Hq2. specialize (Hmx q Hq1).
    split; [lia|]. split; [lia|].
    unfold meta_len. cbn [ids of_rows]. unfold zlen. rewrite map_length.
    destruct rs as [|r1 [|r2 rs]]; [destruct In1| |cbn [length]; lia].
    destruct In1 as [->|[]]. destruct Hq1 as [->|[]]. lia. }
  unfold st_drop_empty. rewrite HM, En, Ex. cbn [bind].
  split; [|split; [|split]].
  - intros H. rewrite Forall_forall in H. specialize (H rn In1). replace (mn >? 0) with true by lia. reflexivity.
  - intros H. rewrite Forall_forall in H. pose proof (H rn In1). pose proof (H rx Ix1).
    replace (mn >? 0) with false by lia. replace (mx =? 0) with true by lia. reflexivity.
  - intros Hnot H2. destruct (K _ eq_refl Hnot ltac:(lia)) as (-> & -> & ->). cbn [andb].
    unfold BATCH. rewrite (names_index_ok _ _ _ HB HD). cbn [bind].
    unfold nonzero_squeeze. rewrite lens_nonzero by auto. rewrite nonzero_mask_positions.
    change (mask_positions (map nonempty rs)) with (nonempty_at rs).
    assert (EL : length (nonempty_at rs) = length (filter nonempty rs)) by apply mask_length_filter.
    assert (EV : match nonempty_at rs with [k] => IxScalar k | ks => IxVec ks end = IxVec (nonempty_at rs)).
    { destruct (nonempty_at rs) as [|a [|b l]]; auto. cbn in EL. lia. }
    rewrite EV.
    assert (EA : at_positions rs (nonempty_at rs) = filter nonempty rs) by apply mask_filter.
    destruct (index_select_in_step x bd ld c rs T bd (zlen rs) (nonempty_at rs) SO HBs) as (y & Ey & Hy).
    { apply Forall_forall. apply nonempty_at_range. }
    { intros ->. rewrite HB in HL. discriminate HL. }
    rewrite Ey. cbn [bind]. exists y. split; [reflexivity|]. split; [exact Hy|].
    destruct Hy as (_ & _ & rs' & Em & Hs). rewrite !nth_dim_sel in Hs.
    2,3: (apply nth_error_Some; unfold ndim; congruence).
    rewrite Nat.eqb_refl in Hs.
    replace (Nat.eqb ld bd) with false in Hs.
    2:{ symmetry. apply Nat.eqb_neq. intros ->. rewrite HB in HL. discriminate HL. }
    cbn [sel_time sel_rows] in Hs. rewrite EA in Hs. subst rs'. exact Em.
  - intros Hnot H1. destruct (K _ eq_refl Hnot ltac:(lia)) as (-> & -> & ->). cbn [andb].
    unfold BATCH. rewrite (names_index_ok _ _ _ HB HD). cbn [bind].
    unfold nonzero_squeeze. rewrite lens_nonzero by auto. rewrite nonzero_mask_positions.
    change (mask_positions (map nonempty rs)) with (nonempty_at rs).
    assert (EL : length (nonempty_at rs) = length (filter nonempty rs)) by apply mask_length_filter.
    pose proof (nonempty_at_range rs) as HRg.
    destruct (nonempty_at rs) as [|a [|b l]]; cbn in EL; try lia.
    unfold index_select. rewrite (proj2 (norm_dim_denotes _ _ bd)).
    2:{ split; auto. apply nth_error_Some. unfold ndim. congruence. }
    cbn [bind]. unfold torch_index_select, size. rewrite (nth_error_nth _ _ _ HBs). cbn [ivec_list forallb].
    specialize (HRg a (or_introl eq_refl)). replace ((0 <=? a) && (a <? zlen rs) && true) with true by lia.
    cbn [bind]. unfold BATCH. rewrite (names_index_ok _ _ _ HB HD). cbn [bind]. rewrite Z.eqb_refl.
    rewrite HM. reflexivity.
Qed.

(* ---------- unsqueeze ---------- *)

Lemma distinct_insert_none k l : names_distinct l -> names_distinct (insert_nth k None l).
Proof.
  rewrite <- !names_dup_false. unfold insert_nth.
  assert (G : forall a b, names_dup (a ++ None :: b) = names_dup (a ++ b)).
  { induction a as [|[s|] a IH]; intros b; cbn [app names_dup]; auto. rewrite IH. f_equal.
    unfold names_mem. rewrite !existsb_app. reflexivity. }
  rewrite G. now rewrite firstn_skipn.
Qed.

Lemma insert_nth_length {A} k (a : A) l : (k <= length l)%nat -> length (insert_nth k a l) = S (length l).
Proof.
  intros H. unfold insert_nth. rewrite app_length. cbn [length]. rewrite firstn_length, skipn_length. lia.
Qed.

Lemma unsqueeze_at (t : @tensor V) k : (k <= ndim t)%nat -> new_dim k t (t_unsqueeze t k).
Proof.
  intros Hk. split; [reflexivity|]. intros ia ic Hi. cbn. rewrite <- Hi. now rewrite remove_nth_app.
Qed.

Lemma unsqueeze_eq x d k : length (names x) = ndim (tn x) -> names_distinct (names x) ->
  denotes (S (ndim (tn x))) d k ->
  let j := if d <? 0 then Nat.pred k else k in
  unsqueeze x d = Ok (mkSt (t_unsqueeze (tn x) k) (insert_nth j None (names x)) (smeta x)) /\
  new_dim k (tn x) (t_unsqueeze (tn x) k).
Proof.
  intros HR HD HDn j. pose proof HDn as [Hk Hd]. unfold unsqueeze.
  rewrite (proj2 (norm_dim_denotes _ _ _) HDn). cbn [bind].
  assert (EJ : py_insert (names x) d None = insert_nth j None (names x)).
  { unfold py_insert, zlen. rewrite HR. unfold j. destruct (d <? 0) eqn:E; f_equal; lia. }
  rewrite EJ. rewrite rename_ok.
  - split; [reflexivity|]. apply unsqueeze_at. lia.
  - unfold ndim at 1. cbn [shp t_unsqueeze]. rewrite !insert_nth_length; unfold ndim in *; [lia|lia|].
    unfold j. destruct (d <? 0); lia.
  - now apply distinct_insert_none.
Qed.

(* ---------- squeeze ---------- *)

Lemma remove_nth_dup k l : names_dup l = false -> names_dup (remove_nth k l) = false.
Proof.
  unfold remove_nth. revert k. induction l as [|a l IH]; intros k H.
  - destruct k; exact H.
  - destruct k as [|k].
    + cbn. destruct a; cbn in H; [apply orb_false_iff in H; tauto|auto].
    + cbn [firstn app skipn]. change (a :: firstn k l ++ skipn (S k) l) with (a :: (firstn k l ++ skipn (S k) l)).
      destruct a as [s|]; cbn [names_dup] in *.
      * apply orb_false_iff in H as [H1 H2]. apply orb_false_iff. split; [|now apply IH].
        unfold names_mem in *. apply Bool.not_true_iff_false. intros E. apply existsb_exists in E as (b & Hb & Eb).
        apply Bool.not_true_iff_false in H1. apply H1. apply existsb_exists. exists b. split; auto.
        apply in_app_or in Hb as [Hb|Hb].
        { rewrite <- (firstn_skipn k l). apply in_or_app. now left. }
        { rewrite <- (firstn_skipn (S k) l). apply in_or_app. now right. }
      * now apply IH.
Qed.

Lemma selected_full (t : @tensor V) : selected t (repeat Full (ndim t)) t.
Proof.
  split.
  - symmetry. now apply kept_sizes_full.
  - intros ix H. rewrite source_full; auto. now apply in_range_length in H.
Qed.

Lemma dim_sel_full nd k : (k < nd)%nat -> dim_sel nd k Full = repeat Full nd.
Proof.
  intros H. unfold dim_sel. change (Full :: repeat Full (nd - k - 1)) with (repeat Full (S (nd - k - 1))).
  rewrite <- repeat_app. f_equal. lia.
Qed.

Lemma squeeze_dim x d k : length (names x) = ndim (tn x) -> names_distinct (names x) ->
  denotes (ndim (tn x)) d k ->
  exists y, squeeze x (Some d) = Ok y /\ smeta y = smeta x /\
    let ss := dim_sel (ndim (tn x)) k (if nth k (shp (tn x)) 0 =? 1 then Drop 0 else Full) in
    names y = kept ss (names x) /\ selected (tn x) ss (tn y).
Proof.
  intros HR HD HDn. pose proof (proj1 HDn) as Hk. unfold squeeze.
  rewrite (proj2 (norm_dim_denotes _ _ _) HDn). cbn [bind]. unfold size.
  destruct (nth_error (shp (tn x)) k) as [n|] eqn:En.
  2:{ apply nth_error_None in En. unfold ndim in Hk. lia. }
  destruct (nth_error (names x) k) as [nm|] eqn:Enm.
  2:{ apply nth_error_None in Enm. lia. }
  rewrite (nth_error_nth _ _ _ En). destruct (n =? 1) eqn:E1.
  - rewrite rename_ok.
    + eexists. split; [reflexivity|]. split; [reflexivity|]. cbn [names tn]. split.
      * now rewrite (dim_sel_kept _ _ _ _ nm).
      * apply (select_selected _ _ n). exact En.
    + unfold t_squeeze1, ndim in *. cbn [shp t_select]. unfold remove_nth. rewrite !app_length, !firstn_length, !skipn_length. lia.
    + apply names_dup_false. apply remove_nth_dup. now apply names_dup_false.
  - rewrite rename_ok by auto. eexists. split; [reflexivity|]. split; [reflexivity|]. cbn [names tn].
    rewrite dim_sel_full by auto. split; [now rewrite kept_full|]. apply selected_full.
Qed.

(** The dimensions removed by squeeze(). *)
Lemma squeeze_from s : forall (t : @tensor V) pre, shp t = pre ++ s ->
  let t' := fold_right (fun d acc => t_squeeze1 acc d) t
              (map fst (filter (fun p => snd p =? 1) (combine (seq (length pre) (length s)) s))) in
  shp t' = pre ++ kept_sizes (map squeezes s) s /\
  (forall ia ib, length ia = length pre -> length ib = length (kept_sizes (map squeezes s) s) ->
     at_ t' (ia ++ ib) = at_ t (ia ++ source (map squeezes s) ib)).
Proof.
  induction s as [|n s IH]; intros t pre Hs.
  - cbn. split; [exact Hs|]. intros ia ib _ Hb. destruct ib; [reflexivity|discriminate].
  - specialize (IH t (pre ++ [n])). rewrite <- app_assoc in IH. specialize (IH Hs).
    rewrite app_length in IH. cbn [length] in IH. rewrite Nat.add_1_r in IH. cbn in IH. destruct IH as [H1 H2].
    cbn [length seq combine filter snd fst map]. destruct (n =? 1) eqn:E.
    + assert (EQ : squeezes n = Drop 0) by (unfold squeezes; now rewrite E). rewrite EQ. cbn [map fold_right fst kept_sizes source]. set (t1 := fold_right _ _ _) in *.
      rewrite <- app_assoc in H1. cbn [app] in H1.
      split.
      * unfold t_squeeze1. now rewrite (t_select_shp _ _ _ _ _ H1).
      * intros ia ib Ha Hb. unfold t_squeeze1. rewrite t_select_at by auto.
        rewrite (app_snoc_assoc ia 0 ib). rewrite H2; [|rewrite !app_length; cbn; lia|exact Hb].
        now rewrite <- app_assoc.
    + assert (EQ : squeezes n = Full) by (unfold squeezes; now rewrite E). rewrite EQ.
      cbn [map fold_right fst kept_sizes source]. set (t1 := fold_right _ _ _) in *.
      split.
      * rewrite H1, <- app_assoc. reflexivity.
      * intros ia ib Ha Hb. destruct ib as [|b ib]; [discriminate|]. cbn [length] in Hb.
        rewrite (app_snoc_assoc ia b ib). rewrite H2; [|rewrite !app_length; cbn; lia|lia].
        now rewrite <- app_assoc.
Qed.

Lemma squeeze_all_selected (t : @tensor V) : selected t (map squeezes (shp t)) (t_squeeze_all t).
Proof.
  destruct (squeeze_from (shp t) t [] eq_refl) as [H1 H2]. cbn [length app] in *.
  split; [exact H1|]. intros ix Hix. apply (H2 [] ix eq_refl).
  apply in_range_length in Hix. rewrite Hix. now rewrite <- H1.
Qed.

Lemma squeeze_names_kept (s : list Z) : forall l, length l = length s ->
  forall rem, (forall i n nm, nth_error s i = Some n -> nth_error l i = Some nm -> (names_mem nm rem = true <-> n = 1)) ->
  filter (fun n => negb (names_mem n rem)) l = kept (map squeezes s) l.
Proof.
  induction s as [|n s IH]; intros [|nm l] HL rem H; try discriminate; [reflexivity|].
  cbn [map filter]. specialize (H O n nm eq_refl eq_refl) as H0.
  rewrite (IH l) by (auto; intros i a b Ha Hb; exact (H (S i) a b Ha Hb)).
  assert (EQ : squeezes n = if n =? 1 then Drop 0 else Full) by reflexivity.
  destruct (n =? 1) eqn:E; rewrite EQ; cbn [kept].
  - rewrite (proj2 H0) by lia. reflexivity.
  - destruct (names_mem nm rem) eqn:Em; [|reflexivity]. assert (n = 1) by (apply H0; reflexivity). lia.
Qed.

Lemma in_combine_nth {A B} (l1 : list A) : forall (l2 : list B) a b,
  In (a, b) (combine l1 l2) <-> exists i, nth_error l1 i = Some a /\ nth_error l2 i = Some b.
Proof.
  induction l1 as [|x l1 IH]; intros [|z l2] a b; cbn.
  - split; [tauto|]. intros (i & H & _). destruct i; discriminate.
  - split; [tauto|]. intros (i & H & _). destruct i; discriminate.
  - split; [tauto|]. intros (i & _ & H). destruct i; discriminate.
  - rewrite IH. split.
    + intros [E|(i & H)]; [injection E as <- <-; exists O; auto|exists (S i); exact H].
    + intros ([|i] & H1 & H2); cbn in *; [left; congruence|right; eauto].
Qed.

Lemma squeeze_all x : length (names x) = ndim (tn x) -> names_distinct (names x) ->
  ((forall i, nth_error (names x) i = Some None -> nth_error (shp (tn x)) i <> Some 1) \/
   (forall i, nth_error (names x) i = Some None -> nth_error (shp (tn x)) i = Some 1)) ->
  exists y, squeeze x None = Ok y /\ smeta y = smeta x /\
    names y = kept (map squeezes (shp (tn x))) (names x) /\
    selected (tn x) (map squeezes (shp (tn x))) (tn y).
Proof.
  intros HR HD HU. unfold squeeze. pose proof (squeeze_all_selected (tn x)) as HS.
  rewrite (squeeze_names_kept (shp (tn x))); [|exact HR|].
  - rewrite rename_ok.
    + eexists. split; [reflexivity|]. split; [reflexivity|]. split; [reflexivity|]. exact HS.
    + rewrite (selected_ndim _ _ _ HS). apply kept_length. exact HR.
    + apply names_dup_false. apply kept_dup. now apply names_dup_false.
  - intros i n nm Hn Hnm. rewrite names_mem_In, in_map_iff. split.
    + intros ((n' & nm') & E & Hf). cbn in E. subst nm'. apply filter_In in Hf as [Hc H1]. cbn in H1.
      apply in_combine_nth in Hc as (j & Hj1 & Hj2).
      destruct nm as [s|].
      * assert (i = j) by (eapply HD; eauto). subst j. assert (n = n') by congruence. lia.
      * destruct HU as [HU|HU].
        { exfalso. apply (HU j Hj2). rewrite Hj1. f_equal. lia. }
        { specialize (HU i Hnm). congruence. }
    + intros ->. exists (1, nm). split; [reflexivity|]. apply filter_In. split; [|reflexivity].
      apply in_combine_nth. eauto.
Qed.

End Ops.

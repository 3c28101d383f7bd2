(** Proofs: indexing and narrowing keep names, data and metadata in step. *)

From Coq Require Import String List ZArith Bool Lia.
From Coq Require Import ZifyBool.
From Verif Require Import Py Meta MetaSpec MetaProofs MetaLenProofs MetaSplitProofs MetaBatchProofs Named NamedSpec
  NamedProofs NamedSelProofs NamedIndexProofs NamedMetaProofs.
Import ListNotations.
Open Scope Z_scope.

Lemma picks_all_nth ns is ss d n : picks_all ns is ss -> nth_error ns d = Some n ->
  picks n (nth d is INone) (nth d ss Full).
Proof.
  intros H; revert d. induction H as [|n0 i s ns is ss Hp Hr IH]; intros [|d] E; try discriminate; simpl in *.
  - injection E as <-. exact Hp.
  - apply IH; auto.
Qed.

Lemma sel_rows_sub s rs r : In r (sel_rows s rs) -> In r rs.
Proof.
  assert (G : forall ps, In r (at_positions rs ps) -> In r rs).
  { intros ps H. unfold at_positions in H. apply in_flat_map in H as (p & _ & Hp).
    destruct (nth_error rs (Z.to_nat p)) eqn:E; [|destruct Hp]. destruct Hp as [<-|[]]. eapply nth_error_In; eauto. }
  destruct s; cbn [sel_rows]; [auto|apply G|apply G].
Qed.

Lemma sel_rows_nonneg s rs : nonneg rs -> nonneg (sel_rows s rs).
Proof.
  unfold nonneg. rewrite !Forall_forall. intros H r Hr. apply H. eapply sel_rows_sub; eauto.
Qed.

Lemma at_positions_full {A} (l : list A) : at_positions l (positions (zlen l)) = l.
Proof.
  unfold at_positions, positions, zlen. rewrite Nat2Z.id. rewrite flat_map_concat_map, map_map.
  induction l as [|r l IH]; [reflexivity|].
  cbn [length seq map concat]. rewrite Nat2Z.id. cbn [nth_error app]. f_equal.
  rewrite <- seq_shift, map_map. rewrite <- IH at 2. f_equal. apply map_ext.
  intros i. rewrite !Nat2Z.id. reflexivity.
Qed.

Lemma index_batch_full c rs : index_batch (of_rows c rs) (BSlice (mkSlice None None None)) = Ok (of_rows c rs).
Proof.
  rewrite index_batch_slice_default. rewrite full_positions by apply zlen_nonneg. now rewrite at_positions_full.
Qed.

Section Get.
Context {V : Type}.
Implicit Types x y : @stensor V.

Lemma stream_index_facts x bd ld c rs T : stream_ok x bd ld c rs T ->
  length (names x) = length (shp (tn x)) /\ names_distinct (names x) /\ Forall (fun n => 0 <= n) (shp (tn x)).
Proof. intros []; auto. Qed.

(** C15. *)
Lemma getitem_names x bd ld ix items y :
  length (names x) = length (shp (tn x)) -> names_distinct (names x) -> Forall (fun n => 0 <= n) (shp (tn x)) ->
  nth_error (names x) bd = Some (Some "B"%string) -> nth_error (names x) ld = Some (Some "L"%string) ->
  spreads (ndim (tn x)) ix items -> one_fancy items -> Forall plain_item items ->
  getitem x ix = Ok y ->
  exists ss, picks_all (shp (tn x)) items ss /\ names y = kept ss (names x) /\ selected (tn x) ss (tn y).
Proof.
  intros HR HD Hn HB HL HS HF HPl Hy.
  assert (HT : exists t', torch_getitem (tn x) ix = Ok t').
  { unfold getitem in Hy. destruct (torch_getitem (tn x) ix); [eauto|discriminate]. }
  destruct HT as [t0 HT].
  destruct (torch_getitem_accepts _ _ _ _ Hn HS HPl HT) as [ss HP].
  exists ss. split; [exact HP|].
  destruct (getitem_eq x bd ld ix items ss HR HD Hn HB HL HS HF HP) as (t' & A & _ & E).
  rewrite E in Hy. destruct (index_pair _ _ _); [|discriminate]. injection Hy as <-. cbn. auto.
Qed.

(** C16. *)
Lemma getitem_in_step x bd ld c rs T ix items ss :
  stream_ok x bd ld c rs T -> spreads (ndim (tn x)) ix items -> one_fancy items ->
  picks_all (shp (tn x)) items ss ->
  (nth ld ss Full = Full \/
   exists mx, is_max_len (sel_rows (nth bd ss Full) rs) mx /\ sound_time T mx (nth ld items INone)) ->
  exists y, getitem x ix = Ok y /\ in_step x bd ld c rs (fancy (nth ld items INone)) ss y.
Proof.
  intros [HR HD Hn HB HL HBs HLs HM Hnn Hfit] HS HF HP HT.
  destruct (getitem_eq x bd ld ix items ss HR HD Hn HB HL HS HF HP) as (t' & A & _ & E).
  pose proof (picks_all_nth _ _ _ _ _ HP HBs) as PB. pose proof (picks_all_nth _ _ _ _ _ HP HLs) as PL.
  unfold index_pair in E. rewrite HM, (batch_pick c rs _ _ PB) in E. cbn [bind] in E.
  unfold in_step. destruct HT as [HT|(mx & Hmax & Hs)].
  - pose proof (proj1 (picks_full_iff _ _ _ PL) HT) as Ef.
    unfold lix in E. rewrite Ef in E. cbn [index_length bind] in E.
    eexists. split; [exact E|]. cbn [names tn smeta]. split; [reflexivity|]. split; [exact A|].
    eexists. split; [reflexivity|]. rewrite HT. reflexivity.
  - destruct (nth ld ss Full) as [|p|qs] eqn:Es.
    + pose proof (proj1 (picks_full_iff _ _ _ PL) eq_refl) as Ef.
      unfold lix in E. rewrite Ef in E. cbn [index_length bind] in E.
      eexists. split; [exact E|]. cbn [names tn smeta]. split; [reflexivity|]. split; [exact A|].
      eexists. split; [reflexivity|]. reflexivity.
    + destruct (time_pick c (sel_rows (nth bd ss Full) rs) T mx _ _ PL) as (rs' & E1 & E2); auto.
      { discriminate. } { now apply sel_rows_nonneg. }
      { destruct Hmax as [(r & Hr & <-) _]. apply sel_rows_sub in Hr. rewrite Forall_forall in Hfit. auto. }
      rewrite E1 in E. cbn [bind] in E. eexists. split; [exact E|]. cbn [names tn smeta].
      split; [reflexivity|]. split; [exact A|]. exists rs'. auto.
    + destruct (time_pick c (sel_rows (nth bd ss Full) rs) T mx _ _ PL) as (rs' & E1 & E2); auto.
      { discriminate. } { now apply sel_rows_nonneg. }
      { destruct Hmax as [(r & Hr & <-) _]. apply sel_rows_sub in Hr. rewrite Forall_forall in Hfit. auto. }
      rewrite E1 in E. cbn [bind] in E. eexists. split; [exact E|]. cbn [names tn smeta].
      split; [reflexivity|]. split; [exact A|]. exists rs'. auto.
Qed.

(** Contiguous slices of the length dimension keep the flags exactly. *)
Lemma getitem_slice_exact x bd ld c rs T ix items ss a b mx :
  stream_ok x bd ld c rs T -> spreads (ndim (tn x)) ix items -> one_fancy items ->
  picks_all (shp (tn x)) items ss ->
  nth ld items INone = ISlice (mkSlice a b None) -> (a <> None \/ b <> None) ->
  is_max_len (sel_rows (nth bd ss Full) rs) mx ->
  ((nonneg_end a /\ nonneg_end b) \/ mx = T) -> slice_lo T a <= slice_hi T b ->
  exists y, getitem x ix = Ok y /\
    smeta y = of_rows c (map (row_keep (slice_positions mx a b 1)) (sel_rows (nth bd ss Full) rs)).
Proof.
  intros [HR HD Hn HB HL HBs HLs HM Hnn Hfit] HS HF HP Hi Hab Hmax Hfr Hle.
  destruct (getitem_eq x bd ld ix items ss HR HD Hn HB HL HS HF HP) as (t' & A & _ & E).
  pose proof (picks_all_nth _ _ _ _ _ HP HBs) as PB. pose proof (picks_all_nth _ _ _ _ _ HP HLs) as PL.
  unfold index_pair in E. rewrite HM, (batch_pick c rs _ _ PB) in E. cbn [bind] in E.
  rewrite Hi in E.
  assert (El : lix (ISlice (mkSlice a b None)) = LSlice (mkSlice a b None)).
  { unfold lix. destruct a; [reflexivity|]. destruct b; [reflexivity|]. destruct Hab; congruence. }
  rewrite El in E.
  assert (E1 : index_length (of_rows c (sel_rows (nth bd ss Full) rs)) (LSlice (mkSlice a b None))
             = Ok (of_rows c (map (row_keep (slice_positions mx a b 1)) (sel_rows (nth bd ss Full) rs)))).
  { apply (time_slice c (sel_rows (nth bd ss Full) rs) T mx a b None); auto; [now apply sel_rows_nonneg|].
    destruct Hmax as [(r & Hr & <-) _]. apply sel_rows_sub in Hr. rewrite Forall_forall in Hfit. auto. }
  rewrite E1 in E.
  cbn [bind] in E. eexists. split; [exact E|]. reflexivity.
Qed.

(** select goes through x[...] with the dimension made nonnegative. *)
Lemma select_eq x d k i : denotes (ndim (tn x)) d k ->
  select x d i = getitem x (Tuple (repeat all_item k ++ [i])).
Proof.
  intros [Hk Hd]. unfold select.
  assert (E : Z.to_nat (if d <? 0 then Z.of_nat (ndim (tn x)) + d else d) = k).
  { destruct Hd as [-> | ->].
    - replace (Z.of_nat k <? 0) with false by lia. lia.
    - replace (Z.of_nat k - Z.of_nat (ndim (tn x)) <? 0) with true by lia. lia. }
  rewrite E. reflexivity.
Qed.

Lemma norm_dim_denotes nd d k : norm_dim nd d = Ok k <-> denotes nd d k.
Proof.
  unfold norm_dim, denotes. destruct (d <? 0) eqn:E.
  - destruct ((d + Z.of_nat nd <? 0) || (Z.of_nat nd <=? d + Z.of_nat nd)) eqn:E2; split; intros H; try discriminate; try lia.
    + injection H as <-. lia.
    + f_equal. lia.
  - destruct ((d <? 0) || (Z.of_nat nd <=? d)) eqn:E2; split; intros H; try discriminate; try lia.
    + injection H as <-. lia.
    + f_equal. lia.
Qed.

(** A single re-indexed dimension as a selection. *)
Lemma dim_split {A} (l : list A) k n : nth_error l k = Some n ->
  exists pre post, l = pre ++ n :: post /\ length pre = k.
Proof. intros H. apply nth_error_split in H as (pre & post & -> & <-). eauto. Qed.

Lemma dim_sel_kept {A} nd k s (l : list A) n : length l = nd -> nth_error l k = Some n ->
  kept (dim_sel nd k s) l = match s with Drop _ => remove_nth k l | _ => l end.
Proof.
  intros HL E. destruct (dim_split _ _ _ E) as (pre & post & -> & Hk).
  unfold dim_sel. rewrite kept_app by (rewrite repeat_length; auto).
  rewrite app_length in HL. simpl in HL.
  rewrite kept_full by auto. destruct s; cbn [kept]; rewrite kept_full by lia; auto.
  rewrite <- Hk. now rewrite remove_nth_app.
Qed.

Lemma take_selected (t : @tensor V) k n ps : nth_error (shp t) k = Some n ->
  selected t (dim_sel (ndim t) k (Keep ps)) (t_take t k ps).
Proof.
  intros E. destruct (dim_split _ _ _ E) as (pre & post & Es & Hk). unfold ndim.
  assert (L : length (shp t) = (length pre + S (length post))%nat) by (rewrite Es, app_length; reflexivity).
  assert (K : (length (shp t) - k - 1)%nat = length post) by lia.
  unfold dim_sel. rewrite K. split.
  - rewrite <- Hk, (t_take_shp _ _ _ _ _ Es), Es.
    rewrite kept_sizes_app by (now rewrite repeat_length).
    cbn [kept_sizes]. now rewrite !kept_sizes_full.
  - intros ix Hix. rewrite <- Hk in Hix. rewrite (t_take_shp _ _ _ _ _ Es) in Hix.
    apply in_range_app_inv in Hix as (i1 & i2 & -> & H1 & H2). inversion H2 as [|? j ? i3 Hj H3]; subst.
    pose proof (in_range_length _ _ H1) as L1. pose proof (in_range_length _ _ H3) as L3.
    rewrite t_take_at by auto.
    rewrite (source_app _ pre) by (rewrite ?repeat_length, ?kept_sizes_full; auto).
    cbn [source]. now rewrite !source_full by auto.
Qed.

Lemma select_selected (t : @tensor V) k n p : nth_error (shp t) k = Some n ->
  selected t (dim_sel (ndim t) k (Drop p)) (t_select t k p).
Proof.
  intros E. destruct (dim_split _ _ _ E) as (pre & post & Es & Hk). unfold ndim.
  assert (L : length (shp t) = (length pre + S (length post))%nat) by (rewrite Es, app_length; reflexivity).
  assert (K : (length (shp t) - k - 1)%nat = length post) by lia.
  unfold dim_sel. rewrite K. split.
  - rewrite <- Hk, (t_select_shp _ _ _ _ _ Es), Es.
    rewrite kept_sizes_app by (now rewrite repeat_length).
    cbn [kept_sizes]. now rewrite !kept_sizes_full.
  - intros ix Hix. rewrite <- Hk in Hix. rewrite (t_select_shp _ _ _ _ _ Es) in Hix.
    apply in_range_app_inv in Hix as (i1 & i2 & -> & H1 & H2).
    pose proof (in_range_length _ _ H1) as L1. pose proof (in_range_length _ _ H2) as L3.
    rewrite <- Hk. rewrite t_select_at by auto.
    rewrite (source_app _ pre) by (rewrite ?repeat_length, ?kept_sizes_full; auto).
    cbn [source]. now rewrite !source_full by auto.
Qed.

Lemma nth_dim_sel nd k s d : (k < nd)%nat -> nth d (dim_sel nd k s) Full = if Nat.eqb d k then s else Full.
Proof.
  intros Hk. unfold dim_sel. destruct (Nat.eqb_spec d k) as [->|N].
  - rewrite app_nth2 by (rewrite repeat_length; lia). rewrite repeat_length, Nat.sub_diag. reflexivity.
  - destruct (Nat.lt_ge_cases d k).
    + rewrite app_nth1 by (now rewrite repeat_length). apply nth_repeat.
    + rewrite app_nth2 by (rewrite repeat_length; lia). rewrite repeat_length.
      destruct (d - k)%nat eqn:E; [lia|]. cbn [nth]. apply nth_repeat.
Qed.

Lemma name_other x k bd s : names_distinct (names x) -> nth_error (names x) bd = Some (Some s) -> k <> bd ->
  forall n, nth_error (names x) k = Some n -> dname_eqb n (Some s) = false.
Proof.
  intros HD HB Hk n Hn. destruct (dname_eqb n (Some s)) eqn:E; auto. apply dname_eqb_eq in E. subst.
  exfalso. apply Hk. eapply HD; eauto.
Qed.

(* ---------- narrow ---------- *)

Lemma interval_slice T start len : 0 <= start -> 0 <= len -> start + len <= T ->
  slice_positions T (Some start) (Some (start + len)) 1 = interval start len.
Proof.
  intros H1 H2 H3. rewrite slice_positions_range by lia.
  unfold slice_lo, slice_hi, slice_end. replace (start <? 0) with false by lia.
  replace (start + len <? 0) with false by lia. rewrite !Z.min_l by lia.
  unfold py_range, interval, positions. rewrite range_len_pos by lia.
  replace ((start + len - start + 1 - 1) / 1) with len by (rewrite Z.div_1_r; lia).
  rewrite map_map. apply map_ext. intros i. lia.
Qed.

Lemma narrow_in_step x bd ld c rs T d k n start len :
  stream_ok x bd ld c rs T -> denotes (ndim (tn x)) d k -> nth_error (shp (tn x)) k = Some n ->
  0 <= start -> 0 <= len -> start + len <= n -> (k = ld -> rs <> []) ->
  exists y, narrow x d start len = Ok y /\ in_step x bd ld c rs false (dim_sel (ndim (tn x)) k (Keep (interval start len))) y.
Proof.
  intros [HR HD Hn HB HL HBs HLs HM Hnn Hfit] HDn HK H1 H2 H3 Hne.
  pose proof (proj1 HDn) as Hk. unfold narrow, BATCH, LENGTH.
  rewrite (proj2 (norm_dim_denotes _ _ _) HDn). cbn [bind].
  assert (Ez : size (tn x) k = n) by (unfold size; now apply nth_error_nth).
  unfold torch_narrow. rewrite Ez. replace (len <? 0) with false by lia.
  replace ((start <? - n) || (n <? start)) with false by lia.
  replace (start <? 0) with false by lia. replace (n <? start + len) with false by lia. cbn [bind].
  change (map (fun i => start + i) (dim_positions len)) with (interval start len).
  destruct (nth_error (names x) k) as [nm|] eqn:Enm.
  2:{ apply nth_error_None in Enm. unfold ndim in Hk. lia. }
  unfold name_at. rewrite Enm. cbn [bind].
  pose proof (take_selected (tn x) k n (interval start len) HK) as HS.
  assert (HKn : kept (dim_sel (ndim (tn x)) k (Keep (interval start len))) (names x) = names x).
  { rewrite (dim_sel_kept _ _ _ _ nm); auto. }
  destruct (Nat.eq_dec k bd) as [->|Nb].
  - rewrite HB in Enm. injection Enm as <-.
    assert (ET : n = zlen rs) by congruence. subst n. rewrite HM.
    rewrite (proj2 (dname_eqb_eq _ _) eq_refl). rewrite index_batch_slice_default. cbn [bind].
    eexists. split; [reflexivity|]. split; [cbn; now rewrite HKn|]. split; [exact HS|].
    cbn [smeta]. eexists. split; [reflexivity|]. rewrite !nth_dim_sel by auto. rewrite Nat.eqb_refl.
    assert (Nl : ld <> bd). { intros ->. rewrite HB in HL. discriminate HL. }
    replace (Nat.eqb ld bd) with false by (symmetry; now apply Nat.eqb_neq). cbn [sel_time sel_rows].
    now rewrite interval_slice by lia.
  - rewrite (name_other x k bd "B" HD HB Nb nm Enm).
    destruct (Nat.eq_dec k ld) as [->|Nl].
    + rewrite HL in Enm. injection Enm as <-.
      assert (ET : n = T) by congruence. subst n. rewrite HM.
      rewrite (proj2 (dname_eqb_eq _ _) eq_refl). unfold index_pair.
      rewrite index_batch_full. cbn [bind].
      destruct (max_length_exists c rs) as (mx & _ & Hmax); [auto|].
      destruct (time_pick c rs T mx (ISlice (mkSlice (Some start) (Some (start + len)) None))
                  (Keep (slice_positions T (Some start) (Some (start + len)) 1))) as (rs' & E1 & E2); auto.
      { apply P_slice. left; discriminate. } { discriminate. }
      { destruct Hmax as [(r & Hr & <-) _]. rewrite Forall_forall in Hfit. auto. }
      { cbn. split; [left; lia|]. unfold slice_lo, slice_hi, slice_end.
        replace (start <? 0) with false by lia. replace (start + len <? 0) with false by lia. lia. }
      unfold lix in E1. cbn [is_full_slice to_lidx] in E1. rewrite E1. cbn [bind].
      eexists. split; [reflexivity|]. split; [cbn; now rewrite HKn|]. split; [exact HS|].
      cbn [smeta]. exists rs'. split; [reflexivity|]. rewrite !nth_dim_sel by auto. rewrite Nat.eqb_refl.
      replace (Nat.eqb bd ld) with false by (symmetry; apply Nat.eqb_neq; auto). cbn [sel_rows].
      rewrite interval_slice in E2 by lia. exact E2.
    + rewrite (name_other x k ld "L" HD HL Nl nm Enm). cbn [bind].
      eexists. split; [reflexivity|]. split; [cbn; now rewrite HKn|]. split; [exact HS|].
      cbn [smeta]. exists rs. split; [exact HM|]. rewrite !nth_dim_sel by auto.
      replace (Nat.eqb ld k) with false by (symmetry; apply Nat.eqb_neq; auto).
      replace (Nat.eqb bd k) with false by (symmetry; apply Nat.eqb_neq; auto). reflexivity.
Qed.

End Get.

(** Proofs about split and unbind of named stream tensors. *)

From Coq Require Import String List ZArith Bool Lia.
From Coq Require Import ZifyBool.
From Verif Require Import Py Meta MetaSpec MetaProofs MetaLenProofs MetaSplitProofs MetaBatchProofs Named NamedSpec
  NamedProofs NamedSelProofs NamedIndexProofs NamedMetaProofs NamedGetProofs NamedOpsProofs.
Import ListNotations.
Open Scope Z_scope.

Lemma chunks_nth {A} k : (1 <= k)%nat -> forall j (l : list A),
  nth_error (chunks_of k l) j = if Nat.ltb (j * k) (length l) then Some (firstn k (skipn (j * k) l)) else None.
Proof.
  intros Hk. induction j as [|j IH]; intros l.
  - destruct l as [|a l]; [reflexivity|]. rewrite chunks_of_cons by (auto; discriminate). reflexivity.
  - destruct l as [|a l]; [reflexivity|]. rewrite chunks_of_cons by (auto; discriminate). cbn [nth_error].
    rewrite IH, skipn_length, skipn_skipn.
    destruct (Nat.ltb_spec (j * k) (length (a :: l) - k)); destruct (Nat.ltb_spec (S j * k) (length (a :: l)));
      try (cbn [Nat.mul] in *; lia); auto.
    do 2 f_equal. f_equal. cbn [Nat.mul]. lia.
Qed.

Lemma sections_nth {A} secs : Forall (fun k => 0 <= k) secs -> forall j (l : list A),
  nth_error (take_sections secs l) j
  = if Nat.ltb j (length secs) then Some (firstn (Z.to_nat (nth j secs 0)) (skipn (Z.to_nat (zsum (firstn j secs))) l)) else None.
Proof.
  induction 1 as [|k secs Hk HF IH]; intros j l; [destruct j; reflexivity|].
  destruct j as [|j]; [reflexivity|]. cbn [take_sections nth_error nth length firstn]. rewrite IH.
  change (Nat.ltb (S j) (S (length secs))) with (Nat.ltb j (length secs)).
  destruct (Nat.ltb j (length secs)); [|reflexivity]. f_equal. f_equal. rewrite skipn_skipn. f_equal.
  change (zsum (k :: firstn j secs)) with (k + zsum (firstn j secs)).
  assert (0 <= zsum (firstn j secs)).
  { clear -HF. revert j. induction HF; intros [|j]; cbn; try lia. specialize (IHHF j). unfold zsum in IHHF. lia. }
  lia.
Qed.

Lemma zsum_firstn_nonneg secs j : Forall (fun k => 0 <= k) secs -> 0 <= zsum (firstn j secs).
Proof.
  intros HF. revert j. induction HF; intros [|j]; cbn; try lia. specialize (IHHF j). unfold zsum in IHHF. lia.
Qed.

Lemma zsum_firstn_S secs j : (j < length secs)%nat -> zsum (firstn (S j) secs) = zsum (firstn j secs) + nth j secs 0.
Proof.
  revert j. induction secs as [|k secs IH]; intros j Hj; [cbn in Hj; lia|]. destruct j as [|j]; [cbn; lia|].
  change (zsum (firstn (S (S j)) (k :: secs))) with (k + zsum (firstn (S j) secs)).
  change (zsum (firstn (S j) (k :: secs))) with (k + zsum (firstn j secs)). cbn [nth]. rewrite IH by (cbn in Hj; lia). lia.
Qed.

Lemma zsum_firstn_le secs j : Forall (fun k => 0 <= k) secs -> zsum (firstn j secs) <= zsum secs.
Proof.
  intros HF. rewrite <- (firstn_skipn j secs) at 2. rewrite zsum_app.
  assert (0 <= zsum (skipn j secs)); [|lia].
  clear -HF. revert j. induction HF; intros [|j]; cbn; try lia.
  - specialize (IHHF O). cbn in IHHF. unfold zsum in IHHF. lia.
  - apply IHHF.
Qed.

Lemma cut_positions n a m : (a <= n)%nat ->
  firstn m (skipn a (map Z.of_nat (seq 0 n))) = map Z.of_nat (seq a (Nat.min m (n - a))).
Proof.
  intros Ha. replace n with (a + (n - a))%nat at 1 by lia. rewrite seq_app, map_app.
  rewrite skipn_app. rewrite skipn_all2 by (rewrite map_length, seq_length; lia).
  rewrite map_length, seq_length, Nat.sub_diag. cbn [skipn app].
  generalize (n - a)%nat. clear. intros p. cbn [Nat.add]. revert a m.
  induction p as [|p IH]; intros a m; [now rewrite firstn_nil, Nat.min_0_r|].
  destruct m as [|m]; [reflexivity|]. cbn [seq map firstn Nat.min]. now rewrite IH.
Qed.

Lemma interval_seq a m : map Z.of_nat (seq a m) = interval (Z.of_nat a) (Z.of_nat m).
Proof.
  unfold interval, positions. rewrite Nat2Z.id, map_map.
  rewrite <- (Nat.add_0_r a) at 1. revert a. 
  assert (G : forall m a b, map Z.of_nat (seq (a + b) m) = map (fun i => Z.of_nat a + Z.of_nat i) (seq b m)).
  { clear. induction m as [|m IH]; intros a b; [reflexivity|]. cbn [seq map]. f_equal; [lia|].
    rewrite <- IH. now rewrite Nat.add_succ_r. }
  intros a. apply G.
Qed.

(** j-th piece of a dimension of size n. *)
Lemma split_piece n sz pss j ps : 0 <= n -> split_fits n sz -> tensor_split sz (dim_positions n) = Ok pss ->
  nth_error pss j = Some ps -> ps = piece_positions sz n j /\ (0 <= piece_lo sz j <= n).
Proof.
  intros Hn HV E Hj. change (dim_positions n) with (map Z.of_nat (seq 0 (Z.to_nat n))) in E.
  assert (HL : length (map Z.of_nat (seq 0 (Z.to_nat n))) = Z.to_nat n) by (now rewrite map_length, seq_length).
  destruct sz as [k|secs]; cbn [split_fits tensor_split] in *.
  - unfold tensor_split_int in E. replace (k <? 0) with false in E by lia. replace (k =? 0) with false in E by lia.
    injection E as <-. unfold piece_positions, piece_hi, piece_lo.
    destruct (Z.eq_dec n 0) as [->|Nz].
    + cbn in Hj. destruct j as [|[|j]]; try discriminate. injection Hj as <-. split; [|lia].
      unfold interval, positions. replace (Z.to_nat (Z.min (Z.of_nat 1 * k) 0 - Z.of_nat 0 * k)) with O by lia. reflexivity.
    + destruct (map Z.of_nat (seq 0 (Z.to_nat n))) as [|z l] eqn:Ez; [cbn in HL; lia|]. rewrite <- Ez in *.
      rewrite chunks_nth in Hj by lia. rewrite HL in Hj.
      destruct (Nat.ltb_spec (j * Z.to_nat k) (Z.to_nat n)) as [Hlt|]; [|discriminate]. injection Hj as <-.
      rewrite cut_positions by lia. rewrite interval_seq. split; [|nia]. f_equal; nia.
  - destruct HV as [HF Hs]. unfold tensor_split_list in E.
    destruct (forallb _ _ && _); [|discriminate]. injection E as <-.
    rewrite sections_nth in Hj by auto. destruct (Nat.ltb_spec j (length secs)) as [Hlt|]; [|discriminate].
    injection Hj as <-. pose proof (zsum_firstn_nonneg secs j HF). pose proof (zsum_firstn_le secs j HF).
    pose proof (zsum_firstn_le secs (S j) HF). rewrite zsum_firstn_S in H1 by auto.
    assert (0 <= nth j secs 0). { rewrite Forall_forall in HF. apply HF. now apply nth_In. }
    rewrite cut_positions by lia. rewrite interval_seq. unfold piece_positions, piece_hi, piece_lo.
    rewrite zsum_firstn_S by auto. split; [|lia]. f_equal; lia.
Qed.

Lemma split_accepts {A} n sz (l : list A) : zlen l = n -> split_fits n sz -> exists pss, tensor_split sz l = Ok pss.
Proof.
  intros HL HV. destruct sz as [k|secs]; cbn [split_fits tensor_split] in *.
  - unfold tensor_split_int. replace (k <? 0) with false by lia. replace (k =? 0) with false by lia. eauto.
  - destruct HV as [HF Hs]. unfold tensor_split_list.
    replace (forallb (fun k => 0 <=? k) secs) with true.
    2:{ symmetry. apply forallb_forall. intros k Hk. rewrite Forall_forall in HF. specialize (HF k Hk). lia. }
    replace (zsum secs =? zlen l) with true by lia. cbn. eauto.
Qed.

Lemma section_of secs p : Forall (fun k => 0 <= k) secs -> 0 <= p < zsum secs ->
  exists j, (j < length secs)%nat /\ zsum (firstn j secs) <= p < zsum (firstn (S j) secs).
Proof.
  intros HF. revert p. induction HF as [|k secs Hk HF IH]; intros p Hp; [cbn in Hp; lia|].
  change (zsum (k :: secs)) with (k + zsum secs) in Hp.
  destruct (Z_lt_le_dec p k).
  - exists O. cbn. lia.
  - destruct (IH (p - k)) as (j & Hj & Hb); [lia|]. exists (S j). cbn [length].
    change (zsum (firstn (S j) (k :: secs))) with (k + zsum (firstn j secs)).
    change (zsum (firstn (S (S j)) (k :: secs))) with (k + zsum (firstn (S j) secs)). lia.
Qed.

Lemma In_interval p a n : In p (interval a n) <-> a <= p < a + n.
Proof.
  unfold interval. rewrite in_map_iff. split.
  - intros (q & <- & Hq). apply positions_spec in Hq. lia.
  - intros H. exists (p - a). split; [lia|]. apply positions_spec. lia.
Qed.

(** Every position below [lim] lies in some piece. *)
Lemma split_covers n sz pss p : split_fits n sz -> tensor_split sz (dim_positions n) = Ok pss -> 0 <= p < n ->
  exists j, In p (piece_positions sz n j) /\ nth_error pss j <> None /\ piece_lo sz j <= p.
Proof.
  intros HV E Hp. change (dim_positions n) with (map Z.of_nat (seq 0 (Z.to_nat n))) in E.
  assert (HL : length (map Z.of_nat (seq 0 (Z.to_nat n))) = Z.to_nat n) by (now rewrite map_length, seq_length).
  destruct sz as [k|secs]; cbn [split_fits tensor_split] in *.
  - unfold tensor_split_int in E. replace (k <? 0) with false in E by lia. replace (k =? 0) with false in E by lia.
    injection E as <-. pose proof (Z.div_mod p k ltac:(lia)). pose proof (Z.mod_pos_bound p k ltac:(lia)).
    assert (0 <= p / k) by (apply Z.div_pos; lia).
    exists (Z.to_nat (p / k)). unfold piece_positions, piece_hi, piece_lo. split; [|split].
    + apply In_interval. nia.
    + destruct (map Z.of_nat (seq 0 (Z.to_nat n))) as [|z l] eqn:Ez; [cbn in HL; lia|]. rewrite <- Ez in *.
      rewrite chunks_nth by lia. rewrite HL.
      destruct (Nat.ltb_spec (Z.to_nat (p / k) * Z.to_nat k) (Z.to_nat n)) as [Hlt|]; [discriminate|]. nia.
    + nia.
  - destruct HV as [HF Hs]. unfold tensor_split_list in E.
    destruct (forallb _ _ && _); [|discriminate]. injection E as <-.
    destruct (section_of secs p HF) as (j & Hj & Hb); [lia|]. exists j.
    pose proof (zsum_firstn_le secs (S j) HF).
    unfold piece_positions, piece_hi, piece_lo. split; [|split].
    + apply In_interval. lia.
    + rewrite sections_nth by auto. replace (Nat.ltb j (length secs)) with true by (symmetry; now apply Nat.ltb_lt). discriminate.
    + lia.
Qed.

Lemma zip_min {A B} : forall (l1 : list A) (l2 : list B), length (zip l1 l2) = Nat.min (length l1) (length l2).
Proof. induction l1; intros [|b l2]; cbn; auto. Qed.

Lemma mapM_nth {A B} (f : A -> res B) l : forall r j b, mapM f l = Ok r -> nth_error r j = Some b ->
  exists a, nth_error l j = Some a /\ f a = Ok b.
Proof.
  unfold mapM. induction l as [|a l IH]; intros r j b E Hj.
  - cbn in E. injection E as <-. destruct j; discriminate.
  - cbn [map seqM] in E. destruct (f a) as [b0|] eqn:Ef; [|discriminate]. cbn [bind] in E.
    destruct (seqM (map f l)) as [r0|] eqn:Er; [|discriminate]. cbn [bind] in E. injection E as <-.
    destruct j as [|j]; cbn in Hj; [injection Hj as <-; exists a; auto|]. apply (IH r0 j b); auto.
Qed.

Lemma count_real_interval a n len : 0 <= n -> count_real (interval a n) len = Z.max 0 (Z.min (a + n) len - a).
Proof.
  intros Hn. unfold count_real, interval, positions. rewrite map_map.
  set (m := Z.to_nat n). replace n with (Z.of_nat m) by lia. clearbody m. clear Hn n. revert a.
  induction m as [|m IH]; intros a; [cbn; lia|]. cbn [seq map filter]. rewrite <- seq_shift, map_map.
  specialize (IH (a + 1)). erewrite map_ext in IH; [|intros i; replace (a + 1 + Z.of_nat i) with (a + Z.of_nat (S i)) by lia; reflexivity].
  destruct (a + Z.of_nat 0 <? len) eqn:E; [rewrite MetaProofs.zlen_cons in * || unfold zlen in *; cbn [length]|]; lia.
Qed.

Lemma time_row_widen a n1 n2 r r' : 0 <= a -> 0 < n1 <= n2 -> rlen r <= a + n1 ->
  time_row false (interval a n1) r r' -> time_row false (interval a n2) r r'.
Proof.
  intros Ha Hn Hr (H1 & H2 & H3 & H4 & H5 & H6 & H7).
  assert (Z0 : In 0 (interval a n1) <-> In 0 (interval a n2)) by (rewrite !In_interval; lia).
  unfold time_row. rewrite <- Z0. split; auto. split; auto. split; [rewrite H3, !count_real_interval by lia; lia|].
  split; auto. split; auto. split.
  - intros E. destruct (H6 E) as (E1 & p & Hp & Hl). split; auto. exists p. split; auto. rewrite In_interval in *. lia.
  - intros H0 He Hi _. apply H7; auto; [|discriminate]. rewrite In_interval in *. lia.
Qed.

Lemma slice_interval T a b : 0 <= a <= T -> a <= b ->
  slice_positions T (Some a) (Some b) 1 = interval a (Z.min b T - a).
Proof.
  intros Ha Hb. rewrite slice_positions_range by lia. unfold slice_lo, slice_hi, slice_end.
  replace (a <? 0) with false by lia. replace (b <? 0) with false by lia.
  rewrite (Z.min_l a) by lia. rewrite py_range_seq by lia.
  rewrite interval_seq. f_equal; lia.
Qed.

(** One piece of the length dimension. *)
Lemma length_piece c rs mx T a b : nonneg rs -> is_max_len rs mx -> mx <= T -> 0 <= a <= T -> a <= b ->
  exists rs', index_length (of_rows c rs) (LSlice (mkSlice (Some a) (Some b) None)) = Ok (of_rows c rs') /\
    Forall2 (time_row false (interval a (Z.min b T - a))) rs rs'.
Proof.
  intros Hnn Hmax HT Ha Hb.
  destruct (time_pick c rs T mx (ISlice (mkSlice (Some a) (Some b) None)) (Keep (slice_positions T (Some a) (Some b) 1)))
    as (rs' & E1 & E2); auto.
  { apply P_slice. left; discriminate. } { discriminate. }
  { cbn. split; [left; lia|]. unfold slice_lo, slice_hi, slice_end.
    replace (a <? 0) with false by lia. replace (b <? 0) with false by lia. lia. }
  exists rs'. split; [exact E1|]. cbn [sel_time] in E2. now rewrite slice_interval in E2 by lia.
Qed.

Section Split.
Context {V : Type}.
Implicit Types x y : @stensor V.

Lemma in_step_other x bd ld c rs T k n ps : stream_ok x bd ld c rs T -> nth_error (shp (tn x)) k = Some n ->
  k <> bd -> k <> ld ->
  in_step x bd ld c rs false (dim_sel (ndim (tn x)) k (Keep ps)) (mkSt (t_take (tn x) k ps) (names x) (smeta x)).
Proof.
  intros SO HK Nb Nl. pose proof SO as [HR HD Hn HB HL HBs HLs HM Hnn Hfit].
  assert (Hk : (k < ndim (tn x))%nat). { apply nth_error_Some. unfold ndim. congruence. }
  destruct (nth_error (names x) k) as [nm|] eqn:Enm.
  2:{ apply nth_error_None in Enm. unfold ndim in Hk. lia. }
  split; [|split].
  - cbn. now rewrite (dim_sel_kept _ _ _ _ nm).
  - cbn. now apply (take_selected _ _ n).
  - exists rs. split; [exact HM|]. rewrite !nth_dim_sel by auto.
    replace (Nat.eqb ld k) with false by (symmetry; apply Nat.eqb_neq; auto).
    replace (Nat.eqb bd k) with false by (symmetry; apply Nat.eqb_neq; auto). reflexivity.
Qed.

Lemma in_step_batch x bd ld c rs T ps : stream_ok x bd ld c rs T ->
  in_step x bd ld c rs false (dim_sel (ndim (tn x)) bd (Keep ps))
    (mkSt (t_take (tn x) bd ps) (names x) (of_rows c (at_positions rs ps))).
Proof.
  intros SO. pose proof SO as [HR HD Hn HB HL HBs HLs HM Hnn Hfit].
  assert (Hk : (bd < ndim (tn x))%nat). { apply nth_error_Some. unfold ndim. congruence. }
  split; [|split].
  - cbn. now rewrite (dim_sel_kept _ _ _ _ (Some "B"%string)).
  - cbn. now apply (take_selected _ _ (zlen rs)).
  - eexists. split; [reflexivity|]. rewrite !nth_dim_sel by auto. rewrite Nat.eqb_refl.
    replace (Nat.eqb ld bd) with false; [reflexivity|].
    symmetry. apply Nat.eqb_neq. intros ->. rewrite HB in HL. discriminate HL.
Qed.

Lemma in_step_length x bd ld c rs T ps rs' : stream_ok x bd ld c rs T -> Forall2 (time_row false ps) rs rs' ->
  in_step x bd ld c rs false (dim_sel (ndim (tn x)) ld (Keep ps)) (mkSt (t_take (tn x) ld ps) (names x) (of_rows c rs')).
Proof.
  intros SO HF. pose proof SO as [HR HD Hn HB HL HBs HLs HM Hnn Hfit].
  assert (Hk : (ld < ndim (tn x))%nat). { apply nth_error_Some. unfold ndim. congruence. }
  split; [|split].
  - cbn. now rewrite (dim_sel_kept _ _ _ _ (Some "L"%string)).
  - cbn. now apply (take_selected _ _ T).
  - eexists. split; [reflexivity|]. rewrite !nth_dim_sel by auto. rewrite Nat.eqb_refl.
    replace (Nat.eqb bd ld) with false; [exact HF|].
    symmetry. apply Nat.eqb_neq. intros ->. rewrite HB in HL. discriminate HL.
Qed.

Lemma split_start x d k sz : denotes (ndim (tn x)) d k -> forall nm n, nth_error (names x) k = Some nm ->
  nth_error (shp (tn x)) k = Some n -> forall pss, tensor_split sz (dim_positions n) = Ok pss ->
  split x sz d =
    (if dname_eqb nm (Some LENGTH) then
       do ms <- split_length (smeta x) sz;
       Ok (map (fun p => mkSt (fst p) (names x) (snd p)) (zip (map (t_take (tn x) k) pss) ms))
     else if dname_eqb nm (Some BATCH) then
       do ms <- split_batch (smeta x) sz;
       Ok (map (fun p => mkSt (fst p) (names x) (snd p)) (zip (map (t_take (tn x) k) pss) ms))
     else Ok (map (fun t => mkSt t (names x) (smeta x)) (map (t_take (tn x) k) pss))).
Proof.
  intros HDn nm n Hnm Hn pss E. unfold split. rewrite (proj2 (norm_dim_denotes _ _ _) HDn). cbn [bind].
  unfold name_at. rewrite Hnm. cbn [bind]. unfold torch_split, size. rewrite (nth_error_nth _ _ _ Hn), E. reflexivity.
Qed.

Lemma split_rows_nth n sz c rs pss : 0 <= n -> zlen rs = n -> split_fits n sz -> tensor_split sz (dim_positions n) = Ok pss ->
  exists gs, split_batch (of_rows c rs) sz = Ok (map (of_rows c) gs) /\
    (forall j, 0 < n \/ (exists l, sz = SList l) -> (nth_error gs j = None <-> nth_error pss j = None)) /\
    (forall j g, nth_error gs j = Some g -> nth_error pss j <> None /\ g = at_positions rs (piece_positions sz n j)).
Proof.
  intros Hn HL HV E. change (dim_positions n) with (map Z.of_nat (seq 0 (Z.to_nat n))) in E.
  assert (HLp : length (map Z.of_nat (seq 0 (Z.to_nat n))) = Z.to_nat n) by (now rewrite map_length, seq_length).
  assert (HLr : length rs = Z.to_nat n) by (unfold zlen in HL; lia).
  assert (AP : forall m a, (a <= Z.to_nat n)%nat -> at_positions rs (interval (Z.of_nat a) (Z.of_nat (Nat.min m (Z.to_nat n - a))))
             = firstn m (skipn a rs)).
  { intros m a Ha. rewrite <- interval_seq, at_positions_seq.
    destruct (Nat.min_spec m (Z.to_nat n - a)) as [[H1 ->]|[H1 ->]]; [reflexivity|].
    rewrite !firstn_all2; auto; rewrite skipn_length; lia. }
  destruct sz as [k|secs]; cbn [split_fits tensor_split] in *.
  - exists (chunks_of (Z.to_nat k) rs). split; [now apply split_batch_int|].
    unfold tensor_split_int in E. replace (k <? 0) with false in E by lia. replace (k =? 0) with false in E by lia.
    injection E as <-. 
    assert (NZ : forall j, 0 < n -> nth_error (match map Z.of_nat (seq 0 (Z.to_nat n)) with [] => [[]]
        | _ => chunks_of (Z.to_nat k) (map Z.of_nat (seq 0 (Z.to_nat n))) end) j = None <-> nth_error (chunks_of (Z.to_nat k) rs) j = None).
    { intros j Hp. destruct (map Z.of_nat (seq 0 (Z.to_nat n))) as [|z l] eqn:Ez; [cbn in HLp; lia|]. rewrite <- Ez in *.
      rewrite !chunks_nth by lia. rewrite HLp, HLr. destruct (Nat.ltb _ _); [split; discriminate|tauto]. }
    split.
    + intros j [Hp|(l & Hl)]; [|discriminate]. rewrite <- NZ by auto. tauto.
    + intros j g Hg.
      assert (Hp : 0 < n).
      { destruct rs; [destruct j; discriminate Hg|]. cbn in HLr. lia. }
      split; [rewrite NZ by auto; congruence|].
      rewrite chunks_nth in Hg by lia. destruct (Nat.ltb_spec (j * Z.to_nat k) (length rs)); [|discriminate].
      injection Hg as <-. rewrite <- (AP (Z.to_nat k)) by lia. f_equal. unfold piece_positions, piece_hi, piece_lo. f_equal; nia.
  - destruct HV as [HF Hs]. exists (take_sections secs rs). split; [apply split_batch_list; auto; lia|].
    unfold tensor_split_list in E. destruct (forallb _ _ && _); [|discriminate]. injection E as <-. split.
    + intros j _. rewrite !sections_nth by auto. destruct (Nat.ltb _ _); [split; discriminate|tauto].
    + intros j g Hg. rewrite !sections_nth in * by auto. destruct (Nat.ltb_spec j (length secs)) as [Hlt|]; [|discriminate].
      injection Hg as <-. split; [discriminate|].
      pose proof (zsum_firstn_nonneg secs j HF). pose proof (zsum_firstn_le secs j HF).
      pose proof (zsum_firstn_le secs (S j) HF). rewrite zsum_firstn_S in H1 by auto.
      assert (0 <= nth j secs 0). { rewrite Forall_forall in HF. apply HF. now apply nth_In. }
      rewrite <- (AP (Z.to_nat (nth j secs 0))) by lia. f_equal. unfold piece_positions, piece_hi, piece_lo.
      rewrite zsum_firstn_S by auto. f_equal; lia.
Qed.

Lemma split_in_step x bd ld c rs T d k n sz :
  stream_ok x bd ld c rs T -> denotes (ndim (tn x)) d k -> nth_error (shp (tn x)) k = Some n ->
  split_fits n sz -> (k = ld -> rs <> []) ->
  exists ys, split x sz d = Ok ys /\
    (forall j y, nth_error ys j = Some y -> in_step x bd ld c rs false (dim_sel (ndim (tn x)) k (Keep (piece_positions sz n j))) y) /\
    (forall p, 0 <= p < n -> (k = ld -> exists r, In r rs /\ p < rlen r) ->
       exists j y, nth_error ys j = Some y /\ In p (piece_positions sz n j)).
Proof.
  intros SO HDn HK HV Hne. pose proof SO as [HR HD Hn HB HL HBs HLs HM Hnn Hfit].
  pose proof (proj1 HDn) as Hk.
  assert (Hn0 : 0 <= n). { rewrite Forall_forall in Hn. apply Hn. eapply nth_error_In; eauto. }
  destruct (nth_error (names x) k) as [nm|] eqn:Enm.
  2:{ apply nth_error_None in Enm. unfold ndim in Hk. lia. }
  destruct (split_accepts n sz (dim_positions n)) as (pss & Ep); [now apply zlen_positions|exact HV|].
  rewrite (split_start x d k sz HDn nm n Enm HK pss Ep). unfold BATCH, LENGTH.
  destruct (Nat.eq_dec k ld) as [->|Nl].
  - rewrite HL in Enm. injection Enm as <-. rewrite (proj2 (dname_eqb_eq _ _) eq_refl).
    assert (ET : n = T) by congruence. subst n. specialize (Hne eq_refl).
    destruct (max_length_exists c rs Hne) as (mx & Emx & Hmax).
    pose proof (is_max_len_nonneg _ _ Hnn Hmax) as Hmx0.
    assert (HmT : mx <= T). { destruct Hmax as [(r & Hr & <-) _]. rewrite Forall_forall in Hfit. auto. }
    assert (HVm : valid_sections mx sz) by (destruct sz; cbn [valid_sections split_fits] in *; [auto|destruct HV; split; [assumption|lia]]).
    destruct (split_bounds_chain mx sz Hmx0 HVm) as (bs & e & Eb & Hc & _).
    rewrite HM. rewrite (split_length_raw c rs mx sz bs e Hnn Hmax Eb Hc). cbn [bind].
    eexists. split; [reflexivity|].
    assert (BN : forall j a b, nth_error bs j = Some (a, b) ->
       a = piece_lo sz j /\ a <= b /\ ((exists l, sz = SList l) /\ b = piece_hi sz j \/
         (a < mx /\ b = Z.min (piece_hi sz j) mx))).
    { intros j a b Hj. pose proof (chain_firstn _ _ _ _ _ _ Hc Hj) as (_ & _ & Hab & _).
      destruct sz as [kk|l]; cbn [valid_sections] in HVm.
      - rewrite split_int_bounds in Eb by auto. injection Eb as <-. rewrite nth_error_map in Hj.
        destruct (nth_error (py_range 0 mx kk) j) as [v|] eqn:Ev; [|discriminate]. cbn in Hj. injection Hj as <- <-.
        pose proof (py_range_nth 0 mx kk j v ltac:(lia) Ev) as Hv.
        assert (v < mx). { apply nth_error_In in Ev. unfold py_range in Ev. apply in_map_iff in Ev as (i & Ei & Hi).
          apply in_seq in Hi. rewrite range_len_pos in Hi by lia.
          assert (Z.of_nat i < (mx - 0 + kk - 1) / kk) by lia.
          assert (Z.of_nat i + 1 <= (mx - 0 + kk - 1) / kk) by lia.
          assert (kk * (Z.of_nat i + 1) <= mx - 0 + kk - 1).
          { etransitivity; [apply Z.mul_le_mono_nonneg_l; [lia|eassumption]|]. apply Z.mul_div_le. lia. }
          lia. }
        split; [unfold piece_lo; lia|]. split; [lia|]. right. split; [lia|]. unfold piece_hi, piece_lo. f_equal. lia.
      - rewrite split_list_bounds in Eb by tauto.
        assert (Eb' : bs = zip (0 :: init (cumsum l)) (cumsum l)) by congruence. clear Eb. subst bs.
        pose proof (bounds_nth_lt _ _ _ Hj) as Hlt. unfold cumsum in Hj. rewrite cumsum_from_nth in Hj by auto.
        injection Hj as <- <-. split; [reflexivity|]. split; [exact Hab|]. left. split; [eauto|reflexivity]. }
    split.
    + intros j y Hy. rewrite nth_error_map, zip_nth in Hy. rewrite !nth_error_map in Hy.
      destruct (nth_error pss j) as [ps|] eqn:Eps; [|discriminate]. cbn in Hy.
      destruct (nth_error bs j) as [[a b]|] eqn:Ebj; [|discriminate]. cbn in Hy. injection Hy as <-.
      destruct (split_piece T sz pss j ps Hn0 HV Ep Eps) as [-> Hlo].
      destruct (BN _ _ _ Ebj) as (Ha & Hab & Hcase).
      pose proof (index_slice_cut c rs mx a b Hnn Hmax ltac:(lia)) as IC.
      destruct (length_piece c rs mx T a b Hnn Hmax HmT ltac:(lia) Hab) as (rs' & E1 & E2).
      rewrite IC in E1. injection E1 as E1. 
      assert (E1' : of_rows c (map (row_cut mx a b) rs) = of_rows c rs') by (unfold of_rows; congruence).
      rewrite E1'. apply in_step_length with (T := T); [exact SO|].
      unfold piece_positions. destruct Hcase as [[_ ->]|[Hlt ->]].
      * now rewrite <- Ha.
      * rewrite <- Ha. 
        assert (HH : 0 < Z.min (piece_hi sz j) mx - a \/ Z.min (piece_hi sz j) mx - a = 0) by lia.
        destruct HH as [HH|HH].
        { assert (G : forall l l', Forall2 (time_row false (interval a (Z.min (Z.min (piece_hi sz j) mx) T - a))) l l' ->
             (forall r, In r l -> rlen r <= mx) -> Forall2 (time_row false (interval a (Z.min (piece_hi sz j) T - a))) l l').
          { induction 1 as [|r r' l l' Hr Hll IH]; intros HB'; constructor.
            - destruct (Z_le_gt_dec (piece_hi sz j) mx).
              + replace (Z.min (piece_hi sz j) T - a) with (Z.min (Z.min (piece_hi sz j) mx) T - a) by lia. exact Hr.
              + apply (time_row_widen a (Z.min (Z.min (piece_hi sz j) mx) T - a)); try lia; auto.
                specialize (HB' r (or_introl eq_refl)). lia.
            - apply IH. intros; apply HB'; now right. }
          apply G; auto. destruct Hmax; auto. }
        { replace (Z.min (piece_hi sz j) T - a) with (Z.min (Z.min (piece_hi sz j) mx) T - a) by lia. exact E2. }
    + intros p Hp Hr. destruct (Hr eq_refl) as (r & Hr1 & Hr2).
      assert (Hpm : p < mx). { destruct Hmax as [_ Hm]. specialize (Hm r Hr1). lia. }
      destruct (split_covers T sz pss p HV Ep Hp) as (j & HI & Hps & Hlo). exists j.
      destruct (nth_error pss j) as [ps|] eqn:Eps; [|congruence].
      assert (Hb : exists q, nth_error bs j = Some q).
      { destruct (nth_error bs j) eqn:Eq; [eauto|]. exfalso. apply nth_error_None in Eq.
        destruct sz as [kk|l]; cbn [valid_sections] in HVm.
        - rewrite split_int_bounds in Eb by auto. injection Eb as <-. rewrite map_length in Eq. unfold py_range in Eq.
          rewrite map_length, seq_length, range_len_pos in Eq by lia. unfold piece_lo in Hlo.
          assert ((mx - 0 + kk - 1) / kk <= Z.of_nat j) by lia.
          pose proof (Z.div_mod (mx - 0 + kk - 1) kk ltac:(lia)). pose proof (Z.mod_pos_bound (mx - 0 + kk - 1) kk ltac:(lia)). nia.
        - rewrite split_list_bounds in Eb by tauto.
        assert (Eb' : bs = zip (0 :: init (cumsum l)) (cumsum l)) by congruence. clear Eb. subst bs. unfold cumsum in Eq. rewrite bounds_length in Eq.
          cbn [tensor_split] in Ep. unfold tensor_split_list in Ep. destruct (forallb _ _ && _); [|discriminate].
          injection Ep as <-. rewrite sections_nth in Eps by tauto.
          replace (Nat.ltb j (length l)) with false in Eps by (symmetry; apply Nat.ltb_ge; lia). discriminate. }
      destruct Hb as (q & Hq). eexists. split; [|exact HI].
      rewrite nth_error_map, zip_nth, !nth_error_map, Eps, Hq. reflexivity.
  - rewrite (name_other x k ld "L" HD HL Nl nm Enm).
    destruct (Nat.eq_dec k bd) as [->|Nb].
    + rewrite HB in Enm. injection Enm as <-. rewrite (proj2 (dname_eqb_eq _ _) eq_refl).
      assert (ET : n = zlen rs) by congruence. rewrite HM.
      destruct (split_rows_nth n sz c rs pss Hn0 (eq_sym ET) HV Ep) as (gs & Eg & HN & HG).
      rewrite Eg. cbn [bind]. eexists. split; [reflexivity|]. split.
      * intros j y Hy. rewrite nth_error_map, zip_nth in Hy. rewrite !nth_error_map in Hy.
        destruct (nth_error pss j) as [ps|] eqn:Eps; [|discriminate]. cbn in Hy.
        destruct (nth_error gs j) as [g|] eqn:Egj; [|discriminate]. cbn in Hy. injection Hy as <-.
        destruct (split_piece n sz pss j ps Hn0 HV Ep Eps) as [-> Hlo].
        destruct (HG j g Egj) as [_ ->]. apply in_step_batch with (T := T). exact SO.
      * intros p Hp _. destruct (split_covers n sz pss p HV Ep Hp) as (j & HI & Hps & Hlo). exists j.
        destruct (nth_error pss j) as [ps|] eqn:Eps; [|congruence].
        destruct (nth_error gs j) as [g|] eqn:Egj.
        2:{ exfalso. apply (HN j) in Egj; [congruence|]. left. lia. }
        eexists. split; [|exact HI]. rewrite nth_error_map, zip_nth, !nth_error_map, Eps, Egj. reflexivity.
    + rewrite (name_other x k bd "B" HD HB Nb nm Enm). eexists. split; [reflexivity|]. split.
      * intros j y Hy. rewrite !nth_error_map in Hy.
        destruct (nth_error pss j) as [ps|] eqn:Eps; [|discriminate]. cbn in Hy. injection Hy as <-.
        destruct (split_piece n sz pss j ps Hn0 HV Ep Eps) as [-> Hlo].
        apply (in_step_other x bd ld c rs T k n); auto.
      * intros p Hp _. destruct (split_covers n sz pss p HV Ep Hp) as (j & HI & Hps & Hlo). exists j.
        destruct (nth_error pss j) as [ps|] eqn:Eps; [|congruence].
        eexists. split; [|exact HI]. rewrite !nth_error_map, Eps. reflexivity.
Qed.

(* ---------- unbind ---------- *)

Lemma unbind_length_refused x bd ld c rs T d : stream_ok x bd ld c rs T -> denotes (ndim (tn x)) d ld ->
  unbind x d = Err ValueError.
Proof.
  intros [HR HD Hn HB HL HBs HLs HM Hnn Hfit] HDn. unfold unbind.
  rewrite (proj2 (norm_dim_denotes _ _ _) HDn). cbn [bind]. unfold name_at. rewrite HL. reflexivity.
Qed.

Lemma unbind_in_step x bd ld c rs T d k n : stream_ok x bd ld c rs T -> denotes (ndim (tn x)) d k ->
  nth_error (shp (tn x)) k = Some n -> k <> ld ->
  exists ys, unbind x d = Ok ys /\ zlen ys = n /\
    (forall j y, nth_error ys j = Some y -> in_step x bd ld c rs false (dim_sel (ndim (tn x)) k (Drop (Z.of_nat j))) y).
Proof.
  intros SO HDn HK Nl. pose proof SO as [HR HD Hn HB HL HBs HLs HM Hnn Hfit].
  pose proof (proj1 HDn) as Hk.
  assert (Hn0 : 0 <= n). { rewrite Forall_forall in Hn. apply Hn. eapply nth_error_In; eauto. }
  destruct (nth_error (names x) k) as [nm|] eqn:Enm.
  2:{ apply nth_error_None in Enm. unfold ndim in Hk. lia. }
  unfold unbind. rewrite (proj2 (norm_dim_denotes _ _ _) HDn). cbn [bind]. unfold name_at. rewrite Enm. cbn [bind].
  unfold BATCH, LENGTH. rewrite (name_other x k ld "L" HD HL Nl nm Enm).
  assert (ES : size (tn x) k = n) by (unfold size; now apply nth_error_nth).
  assert (HKn : forall j, kept (dim_sel (ndim (tn x)) k (Drop j)) (names x) = remove_nth k (names x)).
  { intros j. now rewrite (dim_sel_kept _ _ _ _ nm). }
  assert (PN : forall j p, nth_error (dim_positions n) j = Some p -> p = Z.of_nat j /\ (j < Z.to_nat n)%nat).
  { intros j p Hj. unfold dim_positions in Hj. rewrite nth_error_map in Hj.
    destruct (nth_error (seq 0 (Z.to_nat n)) j) eqn:E; [|discriminate]. cbn in Hj. injection Hj as <-.
    assert (j < Z.to_nat n)%nat. { rewrite <- (seq_length (Z.to_nat n) 0). apply nth_error_Some. congruence. }
    apply nth_error_nth with (d := O) in E. rewrite seq_nth in E by auto. split; [|auto]. lia. }
  destruct (Nat.eq_dec k bd) as [->|Nb].
  - rewrite HB in Enm. injection Enm as <-. rewrite (proj2 (dname_eqb_eq _ _) eq_refl).
    assert (ET : n = zlen rs) by congruence. rewrite HM, unbind_batch_rows. cbn [bind].
    unfold torch_unbind. rewrite ES.
    assert (EL : length (map (t_select (tn x) bd) (dim_positions n)) = length (map (fun r => of_rows c [r]) rs)).
    { rewrite !map_length. unfold dim_positions. rewrite map_length, seq_length. unfold zlen in ET. lia. }
    replace (Nat.eqb _ _) with true by (symmetry; now apply Nat.eqb_eq).
    eexists. split; [reflexivity|]. split.
    + unfold zlen. rewrite map_length. rewrite zip_min, <- EL, Nat.min_id, map_length.
      unfold dim_positions. rewrite map_length, seq_length. lia.
    + intros j y Hy. rewrite nth_error_map, zip_nth in Hy. rewrite !nth_error_map in Hy.
      destruct (nth_error (dim_positions n) j) as [p|] eqn:Ep; [|discriminate]. cbn in Hy.
      destruct (nth_error rs j) as [r|] eqn:Er; [|discriminate]. cbn in Hy. injection Hy as <-.
      destruct (PN _ _ Ep) as [-> Hj]. split; [|split].
      * cbn. now rewrite HKn.
      * cbn. now apply (select_selected _ _ n).
      * cbn [smeta]. exists [r]. split; [reflexivity|]. rewrite !nth_dim_sel by auto. rewrite Nat.eqb_refl.
        replace (Nat.eqb ld bd) with false by (symmetry; apply Nat.eqb_neq; auto).
        cbn [sel_time sel_rows]. unfold at_positions. cbn [flat_map]. rewrite Nat2Z.id, Er. reflexivity.
  - rewrite (name_other x k bd "B" HD HB Nb nm Enm). unfold torch_unbind. rewrite ES.
    eexists. split; [reflexivity|]. split.
    + unfold zlen. rewrite !map_length. unfold dim_positions. rewrite map_length, seq_length. lia.
    + intros j y Hy. rewrite !nth_error_map in Hy.
      destruct (nth_error (dim_positions n) j) as [p|] eqn:Ep; [|discriminate]. cbn in Hy. injection Hy as <-.
      destruct (PN _ _ Ep) as [-> Hj]. split; [|split].
      * cbn. now rewrite HKn.
      * cbn. now apply (select_selected _ _ n).
      * cbn [smeta]. exists rs. split; [exact HM|]. rewrite !nth_dim_sel by auto.
        replace (Nat.eqb ld k) with false by (symmetry; apply Nat.eqb_neq; auto).
        replace (Nat.eqb bd k) with false by (symmetry; apply Nat.eqb_neq; auto). reflexivity.
Qed.

End Split.

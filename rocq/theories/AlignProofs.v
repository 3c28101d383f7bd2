(** Data and metadata stay in agreement through any sequence of operations. *)

From Coq Require Import String List ZArith Bool Lia Permutation.
From Coq Require Import ZifyBool.
From Verif Require Import Py Meta MetaSpec MetaProofs MetaLenProofs Named NamedSpec NamedProofs NamedSelProofs NamedIndexProofs
  NamedMetaProofs NamedGetProofs NamedOpsProofs NamedShapeProofs NamedSplitProofs NamedMoreProofs AlignSpec.
Import ListNotations.
Open Scope Z_scope.

Lemma in_range_nth s ix d n : in_range s ix -> nth_error s d = Some n -> 0 <= nth d ix 0 < n.
Proof.
  intros H. revert d. induction H as [|a i s ix Ha H IH]; intros d E; [destruct d; discriminate|].
  destruct d as [|d]; cbn in *; [injection E as <-; auto|]. now apply IH.
Qed.

(* ---- selections *)

Definition sel_valid (n : Z) (s : sel) : Prop :=
  match s with Full => True | Drop p => 0 <= p < n | Keep ps => Forall (fun p => 0 <= p < n) ps end.

(** New number of dimension [d]. *)
Definition droppish (s : sel) : bool := match s with Drop _ => true | _ => false end.
Fixpoint kpos (ss : list sel) (d : nat) : nat :=
  match d, ss with
  | O, _ => O
  | S d', s :: r => if droppish s then kpos r d' else S (kpos r d')
  | S d', [] => S d'
  end.

Lemma slice_positions_range n a b k p : In p (slice_positions n a b k) -> 0 <= p < n.
Proof. unfold slice_positions. intros H. apply filter_In in H as [H _]. now apply positions_spec in H. Qed.

Lemma mask_positions_range b p : In p (mask_positions b) -> 0 <= p < zlen b.
Proof. unfold mask_positions. intros H. apply filter_In in H as [H _]. now apply positions_spec in H. Qed.

Lemma picks_valid n i s : picks n i s -> sel_valid n s.
Proof.
  intros H. destruct H; cbn; auto.
  - destruct (i <? 0) eqn:E; lia.
  - apply Forall_forall. intros p Hp. now apply slice_positions_range in Hp.
  - apply Forall_forall. intros p Hp. now apply slice_positions_range in Hp.
  - apply Forall_forall. intros p Hp. apply in_map_iff in Hp as (i & <- & Hi). rewrite Forall_forall in H.
    specialize (H i Hi). cbn in H. destruct (i <? 0) eqn:E; lia.
  - apply Forall_forall. intros p Hp. apply in_map_iff in Hp as (i & <- & Hi). rewrite Forall_forall in H.
    specialize (H i Hi). cbn in H. destruct (i <? 0) eqn:E; lia.
  - apply Forall_forall. intros p Hp. apply mask_positions_range in Hp. lia.
Qed.

Lemma picks_all_valid ns is ss : picks_all ns is ss -> Forall2 sel_valid ns ss.
Proof. induction 1; constructor; auto. eapply picks_valid; eauto. Qed.

Lemma kept_at {A} ss : forall d (l : list A), length ss = length l -> (d < length l)%nat -> droppish (nth d ss Full) = false ->
  nth_error (kept ss l) (kpos ss d) = nth_error l d.
Proof.
  induction ss as [|s ss IH]; intros d l HL Hd Hs; destruct l as [|a l]; try discriminate; cbn in Hd; try lia.
  destruct d as [|d].
  - cbn in Hs. destruct s; cbn; auto. discriminate.
  - cbn [kpos nth] in *. destruct s; cbn [droppish kept kpos nth_error]; rewrite IH; auto; try (cbn in HL; lia).
Qed.

Lemma kept_sizes_at ss : forall d l n, length ss = length l -> nth_error l d = Some n -> droppish (nth d ss Full) = false ->
  nth_error (kept_sizes ss l) (kpos ss d) = Some (match nth d ss Full with Keep ps => zlen ps | _ => n end).
Proof.
  induction ss as [|s ss IH]; intros d l n HL Hd Hs; destruct l as [|a l]; try discriminate; [destruct d; discriminate|].
  destruct d as [|d].
  - cbn in Hd. injection Hd as <-. cbn in Hs. destruct s; cbn; auto. discriminate.
  - cbn [kpos nth nth_error] in *. destruct s; cbn [droppish kept_sizes kpos nth_error]; erewrite IH; eauto; cbn in HL; lia.
Qed.

Lemma nth_range_list ps i n : Forall (fun p => 0 <= p < n) ps -> 0 <= i < zlen ps -> 0 <= nth (Z.to_nat i) ps 0 < n.
Proof. intros H Hi. unfold zlen in Hi. rewrite Forall_forall in H. apply H. apply nth_In. lia. Qed.

Lemma source_range s : forall ss ix, Forall2 sel_valid s ss -> in_range (kept_sizes ss s) ix -> in_range s (source ss ix).
Proof.
  induction s as [|n s IH]; intros ss ix H R; inversion H as [|? sl ? ss' Hs H']; subst; cbn in *; [constructor|].
  destruct sl as [|p|ps]; cbn [kept_sizes source] in *.
  - inversion R; subst. constructor; auto. now apply IH.
  - constructor; auto. now apply IH.
  - inversion R; subst. constructor; [now apply nth_range_list|]. now apply IH.
Qed.

Lemma source_at ss : forall d ix, (d < length ss)%nat -> droppish (nth d ss Full) = false ->
  (kpos ss d < length ix)%nat ->
  nth d (source ss ix) 0 =
  match nth d ss Full with Keep ps => nth (Z.to_nat (nth (kpos ss d) ix 0)) ps 0 | _ => nth (kpos ss d) ix 0 end.
Proof.
  induction ss as [|s ss IH]; intros d ix Hd Hs Hk; cbn in Hd; [lia|]. destruct d as [|d].
  - cbn in *. destruct s; try discriminate; destruct ix; cbn in *; auto; lia.
  - cbn [kpos nth] in *. destruct s; cbn [droppish source nth] in *.
    + destruct ix as [|i ix]; cbn in Hk; [lia|]. cbn [nth]. apply IH; auto; lia.
    + apply IH; auto; lia.
    + destruct ix as [|i ix]; cbn in Hk; [lia|]. cbn [nth]. apply IH; auto; lia.
Qed.

Lemma source_agree ss : forall ld ix jx, length ix = length jx -> droppish (nth ld ss Full) = false ->
  same_but_time (kpos ss ld) ix jx -> same_but_time ld (source ss ix) (source ss jx).
Proof.
  unfold same_but_time. induction ss as [|s ss IH]; intros ld ix jx HL Hs HA d Hd; [destruct d; reflexivity|].
  destruct ld as [|ld].
  - cbn [kpos nth] in *. destruct s; try discriminate.
    + destruct ix as [|i ix], jx as [|j jx]; try discriminate; cbn [source]; [destruct d; reflexivity|].
      destruct d as [|d]; [congruence|]. cbn [nth].
      assert (ix = jx) as ->; [|reflexivity].
      apply (nth_ext _ _ 0 0); [cbn in HL; lia|]. intros n _. apply (HA (S n)). lia.
    + destruct ix as [|i ix], jx as [|j jx]; try discriminate; cbn [source]; [destruct d; reflexivity|].
      destruct d as [|d]; [congruence|]. cbn [nth].
      assert (ix = jx) as ->; [|reflexivity].
      apply (nth_ext _ _ 0 0); [cbn in HL; lia|]. intros n _. apply (HA (S n)). lia.
  - cbn [kpos nth] in *. destruct s; cbn [droppish source] in *.
    + destruct ix as [|i ix], jx as [|j jx]; try discriminate; [destruct d; reflexivity|].
      destruct d as [|d]; cbn [nth]; [apply (HA O); lia|].
      apply (IH ld); [cbn in HL; lia|auto| |lia]. intros e He. apply (HA (S e)). lia.
    + destruct d as [|d]; cbn [nth]; [reflexivity|]. apply (IH ld); [auto|auto|exact HA|lia].
    + destruct ix as [|i ix], jx as [|j jx]; try discriminate; [destruct d; reflexivity|].
      destruct d as [|d]; cbn [nth]; [f_equal; f_equal; apply (HA O); lia|].
      apply (IH ld); [cbn in HL; lia|auto| |lia]. intros e He. apply (HA (S e)). lia.
Qed.

Section Align.
Context {V : Type}.
Context (real : V -> bool) (owner : V -> string) (time : V -> Z).
Notation aligned_at := (aligned_at real owner time).
Notation aligned := (aligned real owner time).

(** Every position of [y] is read from one of [x]; batch and time coordinates are translated by [g] and [h]. *)
Definition reads_from (x y : @stensor V) (bd ld bd' ld' : nat) (g h : Z -> Z) : Prop :=
  exists phi : list Z -> list Z,
    (forall ix, in_range (shp (tn y)) ix ->
       at_ (tn y) ix = at_ (tn x) (phi ix) /\ in_range (shp (tn x)) (phi ix) /\
       nth bd (phi ix) 0 = g (nth bd' ix 0) /\ nth ld (phi ix) 0 = h (nth ld' ix 0)) /\
    (forall ix jx, in_range (shp (tn y)) ix -> in_range (shp (tn y)) jx -> same_but_time ld' ix jx ->
       same_but_time ld (phi ix) (phi jx)).

Lemma reindex x y bd ld bd' ld' c c' rs rs' T T' g h : aligned_at x bd ld c rs T -> stream_ok y bd' ld' c' rs' T' ->
  reads_from x y bd ld bd' ld' g h ->
  (forall s t, 0 <= s -> s <= t -> t < T' -> h s <= h t) ->
  (forall i r', 0 <= i -> nth_error rs' (Z.to_nat i) = Some r' -> exists r, nth_error rs (Z.to_nat (g i)) = Some r /\ rid r' = rid r /\
     (forall t, 0 <= t < T' -> (t <? rlen r') = (h t <? rlen r))) ->
  aligned_at y bd' ld' c' rs' T'.
Proof.
  intros [SO AR AO AT] SY (phi & P1 & P2) HM HR. constructor; auto.
  - intros ix r' R E. destruct (P1 ix R) as (-> & R' & EB & EL).
    pose proof (in_range_nth _ _ _ _ R (so_lsize _ _ _ _ _ _ SY)) as Ht.
    pose proof (in_range_nth _ _ _ _ R (so_bsize _ _ _ _ _ _ SY)) as Hb.
    destruct (HR (nth bd' ix 0) r') as (r & Er & _ & Hr); [lia|exact E|].
    rewrite (AR _ r); auto; [|now rewrite EB]. rewrite EL. symmetry. now apply Hr.
  - intros ix r' R E Hre. destruct (P1 ix R) as (Ea & R' & EB & EL). rewrite Ea in Hre |- *.
    pose proof (in_range_nth _ _ _ _ R (so_bsize _ _ _ _ _ _ SY)) as Hb.
    destruct (HR (nth bd' ix 0) r') as (r & Er & Hid & _); [lia|exact E|].
    rewrite Hid. apply AO; auto. now rewrite EB.
  - intros ix jx R1 R2 HS HT H1 H2. destruct (P1 ix R1) as (E1 & R1' & _ & L1). destruct (P1 jx R2) as (E2 & R2' & _ & L2).
    rewrite E1, E2 in *.
    pose proof (in_range_nth _ _ _ _ R1 (so_lsize _ _ _ _ _ _ SY)) as Ht1.
    pose proof (in_range_nth _ _ _ _ R2 (so_lsize _ _ _ _ _ _ SY)) as Ht2.
    apply AT; auto. rewrite L1, L2. apply HM; lia.
Qed.

Lemma at_positions_all {A} (l : list A) ps : Forall (fun p => 0 <= p < zlen l) ps ->
  forall i, nth_error (at_positions l ps) i = match nth_error ps i with Some p => nth_error l (Z.to_nat p) | None => None end.
Proof.
  unfold at_positions. induction ps as [|p ps IH]; intros H i; [destruct i; reflexivity|]. inversion H as [|? ? Hp H']; subst.
  cbn [flat_map]. destruct (nth_error l (Z.to_nat p)) as [a|] eqn:E.
  - cbn [app]. destruct i; cbn; auto.
  - apply nth_error_None in E. unfold zlen in Hp. lia.
Qed.

Lemma at_positions_len {A} (l : list A) ps : Forall (fun p => 0 <= p < zlen l) ps -> zlen (at_positions l ps) = zlen ps.
Proof.
  unfold at_positions, zlen. induction ps as [|p ps IH]; intros H; [reflexivity|]. inversion H as [|? ? Hp H']; subst.
  cbn [flat_map]. destruct (nth_error l (Z.to_nat p)) as [a|] eqn:E.
  - cbn [app length]. specialize (IH H'). lia.
  - apply nth_error_None in E. lia.
Qed.

Lemma kept_distinct ss l : names_distinct l -> names_distinct (kept ss l).
Proof. rewrite <- !names_dup_false. apply kept_dup. Qed.

Lemma count_real_bounds qs n : 0 <= count_real qs n <= zlen qs.
Proof.
  unfold count_real, zlen. split; [lia|]. induction qs as [|q qs IH]; cbn; [lia|]. destruct (q <? n); cbn [length]; lia.
Qed.

Lemma kept_sizes_nonneg ss : forall s, Forall (fun n => 0 <= n) s -> Forall (fun n => 0 <= n) (kept_sizes ss s).
Proof.
  induction ss as [|a ss IH]; intros s H; [constructor|]. destruct s as [|n s]; [destruct a; constructor|].
  inversion H; subst. destruct a; cbn; try constructor; auto. unfold zlen. lia.
Qed.

Lemma stays_not_drop s : stays s -> droppish s = false.
Proof. intros H. destruct s; auto. now destruct (H p). Qed.

(** A selection in step with the metadata keeps the agreement. *)
Lemma in_step_aligned x y bd ld c rs T fy ss : aligned_at x bd ld c rs T -> in_step x bd ld c rs fy ss y ->
  Forall2 sel_valid (shp (tn x)) ss -> stays (nth bd ss Full) -> stays (nth ld ss Full) ->
  (forall qs, nth ld ss Full = Keep qs -> ascending qs) -> aligned y.
Proof.
  intros AL (HN & (HS & HA) & rs' & HM & HT) HV SB SL HO. pose proof AL as [SO _ _ _].
  pose proof SO as [HR HD Hn HB HL HBs HLs HMx Hnn Hfit].
  apply stays_not_drop in SB, SL.
  assert (LS : length ss = length (shp (tn x))). { clear -HV. induction HV; cbn; lia. }
  assert (Lb : (bd < length (shp (tn x)))%nat) by (apply nth_error_Some; congruence).
  assert (Ll : (ld < length (shp (tn x)))%nat) by (apply nth_error_Some; congruence).
  set (g := fun i => match nth bd ss Full with Keep ps => nth (Z.to_nat i) ps 0 | _ => i end).
  set (h := fun t => match nth ld ss Full with Keep ps => nth (Z.to_nat t) ps 0 | _ => t end).
  set (T' := match nth ld ss Full with Keep ps => zlen ps | _ => T end).
  assert (VB : sel_valid (zlen rs) (nth bd ss Full)).
  { clear -HV HBs Lb. revert bd HBs Lb. induction HV as [|a b s t Hab HV IH]; intros bd HBs Lb; cbn in Lb; [lia|].
    destruct bd as [|bd]; cbn in *; [congruence|]. apply IH; auto. lia. }
  (* rows of the batch selection *)
  assert (ROWS : zlen (sel_rows (nth bd ss Full) rs) = match nth bd ss Full with Keep ps => zlen ps | _ => zlen rs end /\
    forall i, 0 <= i -> (i < zlen (sel_rows (nth bd ss Full) rs)) ->
      nth_error (sel_rows (nth bd ss Full) rs) (Z.to_nat i) = nth_error rs (Z.to_nat (g i))).
  { unfold g. destruct (nth bd ss Full) as [|p|ps] eqn:Es; [split; reflexivity|discriminate|]. cbn [sel_rows sel_valid] in *.
    split; [now apply at_positions_len|]. rewrite at_positions_len by auto. intros i Hi Hlt.
    rewrite at_positions_all by auto.
    destruct (nth_error ps (Z.to_nat i)) as [p|] eqn:Ep.
    - now rewrite (nth_error_nth _ _ 0 Ep).
    - apply nth_error_None in Ep. unfold zlen in Hlt. lia. }
  destruct ROWS as [RL RN].
  (* rows after the time selection *)
  assert (TIME : zlen rs' = zlen (sel_rows (nth bd ss Full) rs) /\
    forall i r', nth_error rs' i = Some r' -> exists r, nth_error (sel_rows (nth bd ss Full) rs) i = Some r /\
      rid r' = rid r /\ 0 <= rlen r' <= T' /\ (forall t, 0 <= t < T' -> (t <? rlen r') = (h t <? rlen r))).
  { unfold T', h. destruct (nth ld ss Full) as [|p|qs] eqn:Es; [|discriminate|]; cbn [sel_time] in HT.
    - subst rs'. split; [reflexivity|]. intros i r Hr. exists r. split; [auto|]. split; [reflexivity|].
      assert (Hi : In r rs) by (apply nth_error_In in Hr; now apply sel_rows_sub in Hr).
      unfold nonneg in Hnn. rewrite Forall_forall in Hnn, Hfit. specialize (Hnn r Hi). specialize (Hfit r Hi). cbn in Hfit.
      split; [lia|]. auto.
    - split.
      { unfold zlen. f_equal. clear -HT. induction HT; cbn; congruence. }
      specialize (HO qs eq_refl). intros i r' Hr'.
      assert (exists r, nth_error (sel_rows (nth bd ss Full) rs) i = Some r /\ time_row fy qs r r') as (r & Er & TR).
      { clear -HT Hr'. revert i Hr'. induction HT as [|a b l l' Hab HT IH]; intros i Hr'; [destruct i; discriminate|].
        destruct i as [|i]; cbn in *; [exists a; split; congruence|]. now apply IH. }
      exists r. destruct TR as (E1 & _ & E3 & _). split; [auto|]. split; [auto|]. rewrite E3.
      split; [apply count_real_bounds|]. intros t Ht.
      destruct (nth_error qs (Z.to_nat t)) as [q|] eqn:Eq.
      + rewrite (nth_error_nth _ _ 0 Eq). pose proof (real_prefix qs (rlen r) HO _ _ Eq) as PR.
        rewrite Z2Nat.id in PR by lia. lia.
      + apply nth_error_None in Eq. unfold zlen in Ht. lia. }
  destruct TIME as [TL TN].
  assert (SY : stream_ok y (kpos ss bd) (kpos ss ld) c rs' T').
  { constructor.
    - rewrite HN, HS. rewrite (kept_length _ _ (shp (tn x))) by auto. reflexivity.
    - rewrite HN. now apply kept_distinct.
    - rewrite HS. now apply kept_sizes_nonneg.
    - rewrite HN, kept_at; auto; lia.
    - rewrite HN, kept_at; auto; lia.
    - rewrite HS, (kept_sizes_at _ _ _ _ LS HBs SB). f_equal. rewrite TL, RL. reflexivity.
    - rewrite HS, (kept_sizes_at _ _ _ _ LS HLs SL). reflexivity.
    - exact HM.
    - apply Forall_forall. intros r' Hr'. apply In_nth_error in Hr' as (i & Hi). destruct (TN i r' Hi) as (r & _ & _ & B & _). lia.
    - apply Forall_forall. intros r' Hr'. apply In_nth_error in Hr' as (i & Hi). destruct (TN i r' Hi) as (r & _ & _ & B & _). lia. }
  exists (kpos ss bd), (kpos ss ld), c, rs', T'.
  apply (reindex x y bd ld _ _ c c rs rs' T T' g h AL SY).
  - exists (source ss). split.
    + intros ix R. split; [now apply HA|]. rewrite HS in R. split; [now apply source_range|].
      pose proof (in_range_length _ _ R) as RLen.
      assert (KB : (kpos ss bd < length ix)%nat).
      { rewrite RLen. apply nth_error_Some. rewrite (kept_sizes_at _ _ _ _ LS HBs SB). discriminate. }
      assert (KL : (kpos ss ld < length ix)%nat).
      { rewrite RLen. apply nth_error_Some. rewrite (kept_sizes_at _ _ _ _ LS HLs SL). discriminate. }
      split; unfold g, h; rewrite source_at; auto; try lia.
    + intros ix jx R1 R2 Hs. apply source_agree; auto.
      rewrite (in_range_length _ _ R1), (in_range_length _ _ R2). reflexivity.
  - intros s t Hs Hst Ht. unfold h, T' in *. destruct (nth ld ss Full) as [|p|qs] eqn:Es; auto.
    specialize (HO qs eq_refl).
    apply (HO (Z.to_nat s) (Z.to_nat t)); [| |lia]; apply nth_error_nth'; unfold zlen in Ht; lia.
  - intros i r' Hi Hr'. destruct (TN _ _ Hr') as (r & Er & Hid & _ & Hr).
    exists r. split; [|auto]. rewrite <- RN; auto.
    assert (Z.to_nat i < length (sel_rows (nth bd ss Full) rs))%nat by (apply nth_error_Some; congruence). unfold zlen. lia.
Qed.

End Align.

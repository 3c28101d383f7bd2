(** Proofs: the metadata of a selection (overrides.py 562-572 with tensor.py 404-568). *)

From Coq Require Import String List ZArith Bool Lia.
From Coq Require Import ZifyBool.
From Verif Require Import Py Meta MetaSpec MetaProofs MetaLenProofs MetaSplitProofs MetaBatchProofs Named NamedSpec NamedProofs NamedSelProofs NamedIndexProofs.
Import ListNotations.
Open Scope Z_scope.

(* ---------- batch dimension ---------- *)

Lemma at_positions_mask_from {A} : forall (l pre : list A) b, length b = length l ->
  at_positions (pre ++ l) (map Z.of_nat (filter (fun j => nth (j - length pre) b false) (seq (length pre) (length b))))
  = masked l b.
Proof.
  induction l as [|a l IH]; intros pre [|x b] H; try discriminate; [reflexivity|].
  simpl in H; injection H as H. cbn [length seq filter]. rewrite Nat.sub_diag. cbn [nth].
  specialize (IH (pre ++ [a]) b H). rewrite app_length, Nat.add_1_r in IH. rewrite <- app_assoc in IH. cbn [app length] in IH.
  assert (E : filter (fun j => nth (j - length pre) (x :: b) false) (seq (S (length pre)) (length b))
            = filter (fun j => nth (j - S (length pre)) b false) (seq (S (length pre)) (length b))).
  { apply filter_ext_in. intros j Hj. apply in_seq in Hj.
    replace (j - length pre)%nat with (S (j - S (length pre))) by lia. reflexivity. }
  cbn [nth] in E. rewrite E. unfold masked in *. cbn [combine filter snd].
  destruct x; cbn [map fst].
  - unfold at_positions in *. cbn [flat_map]. rewrite Nat2Z.id.
    rewrite nth_error_app2, Nat.sub_diag by lia. cbn [nth_error app]. f_equal. exact IH.
  - exact IH.
Qed.

Lemma at_positions_mask {A} (l : list A) b : length b = length l -> at_positions l (mask_positions b) = masked l b.
Proof.
  intros H. rewrite <- (at_positions_mask_from l [] b H). cbn [app length].
  unfold mask_positions, positions. rewrite filter_map_comm. unfold zlen. rewrite Nat2Z.id. f_equal. f_equal.
  apply filter_ext. intros j. now rewrite Nat2Z.id, Nat.sub_0_r.
Qed.

Lemma wrap_mod n i : - n <= i < n -> i mod n = (if i <? 0 then i + n else i).
Proof.
  intros H. destruct (i <? 0) eqn:E; symmetry.
  - apply Z.mod_unique with (-1); lia.
  - symmetry. apply Z.mod_small. lia.
Qed.

Lemma at_positions_wrap {A} (rs : list A) l : Forall (fun i => - zlen rs <= i < zlen rs) l ->
  at_positions rs (map (fun k => k mod zlen rs) l) = at_positions rs (map (fun i => if i <? 0 then i + zlen rs else i) l).
Proof.
  intros H. f_equal. apply map_ext_in. intros i Hi. rewrite Forall_forall in H. apply wrap_mod. auto.
Qed.

Lemma batch_pick c rs i s : picks (zlen rs) i s ->
  index_batch (of_rows c rs) (bix i) = Ok (of_rows c (sel_rows s rs)).
Proof.
  intros H. pose proof (picks_full_iff _ _ _ H) as HF. unfold bix.
  destruct H as [|i Hi|a b Hab|a b k Hk|l Hl|l Hl|b Hb].
  - reflexivity.
  - cbn [is_full_slice to_bidx sel_rows]. rewrite index_batch_int_ints, index_batch_ints.
    2:{ intros ? [<-|[]]; auto. }
    cbn [map]. rewrite wrap_mod by auto. reflexivity.
  - destruct (is_full_slice _); [destruct HF as [_ HF]; discriminate (HF eq_refl)|].
    cbn [to_bidx sel_rows]. apply index_batch_slice_default.
  - destruct (is_full_slice _); [destruct HF as [_ HF]; discriminate (HF eq_refl)|].
    cbn [to_bidx sel_rows]. now apply index_batch_slice.
  - cbn [is_full_slice to_bidx sel_rows]. rewrite index_batch_ints by (apply Forall_forall; auto).
    now rewrite at_positions_wrap.
  - cbn [is_full_slice to_bidx sel_rows]. rewrite index_batch_ints by (apply Forall_forall; auto).
    now rewrite at_positions_wrap.
  - assert (length b = length rs) by (unfold zlen in Hb; lia).
    cbn [is_full_slice to_bidx sel_rows]. rewrite index_batch_mask by auto. now rewrite at_positions_mask.
Qed.

(* ---------- length dimension ---------- *)

Lemma index_slice_none c rs mx a b : is_max_len rs mx ->
  index_length (of_rows c rs) (LSlice (mkSlice a b None)) = index_length (of_rows c rs) (LSlice (mkSlice a b (Some 1))).
Proof.
  intros H. unfold index_length, index_length_slice. rewrite (max_length_of_rows _ _ _ H). cbn [bind].
  rewrite slice_indices_none. reflexivity.
Qed.

(** Slices of the tensor (T steps) and of the longest stream (mx steps) see the same real data. *)
Lemma frame_lo T mx a : 0 <= mx <= T -> (nonneg_end a \/ mx = T) ->
  slice_lo T a = slice_lo mx a \/ (slice_lo mx a = mx /\ mx <= slice_lo T a).
Proof.
  intros H [Ha| ->]; [|left; reflexivity]. destruct a as [a|]; cbn in *; [|left; reflexivity].
  unfold slice_lo, slice_end. replace (a <? 0) with false by lia. lia.
Qed.

Lemma frame_hi T mx b : 0 <= mx <= T -> (nonneg_end b \/ mx = T) -> slice_hi mx b = Z.min mx (slice_hi T b).
Proof.
  intros H [Hb| ->].
  - destruct b as [b|]; cbn in *; [|lia]. unfold slice_hi, slice_end. replace (b <? 0) with false by lia. lia.
  - pose proof (slice_hi_bounds T b). lia.
Qed.

Lemma frame_count T mx a b k len : 0 < k -> 0 <= mx <= T -> ((nonneg_end a /\ nonneg_end b) \/ mx = T) -> len <= mx ->
  count_real (slice_positions T a b k) len = count_real (slice_positions mx a b k) len.
Proof.
  intros Hk H HF Hl. rewrite !slice_positions_range by lia.
  pose proof (slice_lo_bounds T a). pose proof (slice_lo_bounds mx a).
  rewrite !count_real_range by lia.
  assert (HFb : nonneg_end b \/ mx = T) by tauto. assert (HFa : nonneg_end a \/ mx = T) by tauto.
  rewrite (frame_hi T mx b) by auto.
  replace (Z.min (Z.min mx (slice_hi T b)) len) with (Z.min (slice_hi T b) len) by lia.
  destruct (frame_lo T mx a) as [->|[E1 E2]]; auto. rewrite E1.
  assert ((Z.min (slice_hi T b) len - slice_lo T a + k - 1) / k < 1) by (apply Z.div_lt_upper_bound; lia).
  assert ((Z.min (slice_hi T b) len - mx + k - 1) / k < 1) by (apply Z.div_lt_upper_bound; lia). lia.
Qed.

Lemma frame_zero T mx a b k : 0 < k -> 0 <= mx <= T -> ((nonneg_end a /\ nonneg_end b) \/ mx = T) ->
  (In 0 (slice_positions mx a b k) -> In 0 (slice_positions T a b k)) /\
  (0 < mx -> In 0 (slice_positions T a b k) -> In 0 (slice_positions mx a b k)).
Proof.
  intros Hk H HF. rewrite !slice_positions_range by lia.
  pose proof (slice_lo_bounds T a). pose proof (slice_lo_bounds mx a).
  assert (HFb : nonneg_end b \/ mx = T) by tauto. assert (HFa : nonneg_end a \/ mx = T) by tauto.
  rewrite !py_range_In by lia. rewrite (frame_hi T mx b) by auto.
  destruct (frame_lo T mx a) as [->|[E1 E2]]; auto.
  - split; intros; lia.
  - split; intros; lia.
Qed.

(** Every position below mx, not only 0. *)
Lemma frame_In T mx a b k p : 0 < k -> 0 <= mx <= T -> ((nonneg_end a /\ nonneg_end b) \/ mx = T) ->
  (In p (slice_positions mx a b k) -> In p (slice_positions T a b k)) /\
  (0 <= p < mx -> In p (slice_positions T a b k) -> In p (slice_positions mx a b k)).
Proof.
  intros Hk H HF. rewrite !slice_positions_range by lia.
  pose proof (slice_lo_bounds T a). pose proof (slice_lo_bounds mx a).
  assert (HFb : nonneg_end b \/ mx = T) by tauto. assert (HFa : nonneg_end a \/ mx = T) by tauto.
  rewrite !py_range_In by lia. rewrite (frame_hi T mx b) by auto.
  destruct (frame_lo T mx a) as [->|[E1 E2]]; auto.
  - split; intros; intuition lia.
  - split; intros; intuition lia.
Qed.

Lemma memb_of_In p l : In p l -> memb p l = true.
Proof. apply memb_In. Qed.

Lemma Forall2_map_same {A} (P : A -> A -> Prop) (f : A -> A) l : (forall a, In a l -> P a (f a)) -> Forall2 P l (map f l).
Proof. induction l; simpl; intros H; constructor; auto. Qed.

Lemma time_row_intro fy qs r b e n : n = count_real qs (rlen r) -> (b = true -> In 0 qs) ->
  (0 < rlen r -> In 0 qs -> b = true) -> (e = true -> reos r = true /\ exists p, In p qs /\ rlen r - 1 <= p) ->
  (0 < rlen r -> reos r = true -> In (rlen r - 1) qs -> (fy = true -> exists p, In p qs /\ rlen r <= p) -> e = true) ->
  time_row fy qs r (mkRow (rid r) (rsos r && b) e n (rch r)).
Proof.
  intros Hn H1 H2 H3 H4. unfold time_row. cbn.
  split; [reflexivity|]. split; [reflexivity|]. split; [exact Hn|].
  split; [intros E; apply andb_true_iff in E as [E1 E2]; auto|].
  split; [intros Hp -> Hi; cbn; auto|]. split; [exact H3|exact H4].
Qed.

(** A slice promises more than a list. *)
Lemma sel_time_weaken fy s rs rs' : sel_time false s rs rs' -> sel_time fy s rs rs'.
Proof.
  assert (G : forall qs l l', Forall2 (time_row false qs) l l' -> Forall2 (time_row fy qs) l l').
  { intros qs l l' H. induction H as [|r r' l l' Hr HF IH]; constructor; auto.
    destruct Hr as (H1 & H2 & H3 & H4 & H5 & H6 & H7). unfold time_row. do 6 (split; auto).
    intros A1 A2 A3 _. apply H7; auto. discriminate. }
  destruct s; cbn [sel_time]; auto.
Qed.

(** Contiguous slices: everything is exact except for streams without data. *)
Lemma time_slice c rs T mx a b st : st = None \/ st = Some 1 -> is_max_len rs mx -> nonneg rs -> mx <= T ->
  ((nonneg_end a /\ nonneg_end b) \/ mx = T) -> slice_lo T a <= slice_hi T b ->
  index_length (of_rows c rs) (LSlice (mkSlice a b st)) = Ok (of_rows c (map (row_keep (slice_positions mx a b 1)) rs)).
Proof.
  intros Hst Hmax Hnn HT HF Hle. pose proof (is_max_len_nonneg _ _ Hnn Hmax) as Hmx.
  assert (index_length (of_rows c rs) (LSlice (mkSlice a b st)) = index_length (of_rows c rs) (LSlice (mkSlice a b (Some 1)))) as ->.
  { destruct Hst as [-> | ->]; [eapply index_slice_none; eauto|reflexivity]. }
  apply index_slice_step1; auto.
  assert (HFb : nonneg_end b \/ mx = T) by tauto. assert (HFa : nonneg_end a \/ mx = T) by tauto.
  rewrite (frame_hi T mx b) by auto.
  pose proof (slice_lo_bounds mx a Hmx).
  destruct (frame_lo T mx a) as [E|[E1 E2]]; auto; lia.
Qed.

Lemma time_pick c rs T mx i s : picks T i s -> s <> Full -> is_max_len rs mx -> nonneg rs -> mx <= T ->
  sound_time T mx i ->
  exists rs', index_length (of_rows c rs) (lix i) = Ok (of_rows c rs') /\ sel_time (fancy i) s rs rs'.
Proof.
  intros H HnF Hmax Hnn HT HS. pose proof (picks_full_iff _ _ _ H) as HF.
  pose proof (is_max_len_nonneg _ _ Hnn Hmax) as Hmx.
  assert (Hlen : forall r, In r rs -> 0 <= rlen r <= mx).
  { intros r Hr. unfold nonneg in Hnn. rewrite Forall_forall in Hnn. split; [auto|]. apply Hmax; auto. }
  assert (HnF' : is_full_slice i = false) by (destruct (is_full_slice i); tauto).
  unfold lix. rewrite HnF'. clear HF.
  assert (Hlist : forall l, l <> [] -> (Forall (fun k => 0 <= k) l \/ mx = T) -> ascending (map (wrap_neg T) l) ->
            Forall (fun i => - T <= i < T) l ->
            exists rs', index_length (of_rows c rs) (LInts l) = Ok (of_rows c rs') /\
                        sel_time true (Keep (map (fun i => if i <? 0 then i + T else i) l)) rs rs').
  { intros l Hne Hfr Hasc Hr.
    assert (EW : map (wrap_neg mx) l = map (fun i => if i <? 0 then i + T else i) l).
    { apply map_ext_in. intros k Hk. unfold wrap_neg. rewrite Forall_forall in Hr. specialize (Hr _ Hk).
      destruct Hfr as [Hfr| ->]; [|destruct (k <? 0) eqn:E; lia].
      rewrite Forall_forall in Hfr. specialize (Hfr _ Hk). now replace (k <? 0) with false by lia. }
    assert (EW2 : map (wrap_neg T) l = map (fun i => if i <? 0 then i + T else i) l).
    { apply map_ext_in. intros k Hk. unfold wrap_neg. destruct (k <? 0); lia. }
    rewrite EW2 in Hasc. set (qs := map (fun i => if i <? 0 then i + T else i) l) in *.
    assert (Hpos : forall p, In p qs -> 0 <= p).
    { unfold qs. intros p Hp. apply in_map_iff in Hp as (k & <- & Hk). rewrite Forall_forall in Hr. specialize (Hr _ Hk).
      destruct (k <? 0) eqn:E; lia. }
    eexists. split.
    { rewrite (index_list_ok c rs mx l); auto.
      - rewrite EW. apply is_sorted_ascending_spec. exact Hasc.
      - rewrite EW. exact Hpos. }
    rewrite EW. cbn [sel_time]. apply Forall2_map_same. intros r Hr'. apply time_row_intro; auto.
    - apply memb_In.
    - intros _. apply memb_In.
    - intros E. apply andb_true_iff in E as [E E3]. apply andb_true_iff in E as [E _]. split; auto.
      apply existsb_exists in E3 as (p & Hp & E3). exists p. split; auto. lia.
    - intros Hp He Hin Hl. rewrite He. cbn [andb]. destruct (Hl eq_refl) as (p & Hpi & Hpl). apply andb_true_iff. split; apply existsb_exists.
      + exists (rlen r - 1). split; auto. lia.
      + exists p. split; auto. lia. }
  assert (Hslice : forall a b st, st = None \/ st = Some 1 -> ((nonneg_end a /\ nonneg_end b) \/ mx = T) ->
            slice_lo T a <= slice_hi T b ->
            exists rs', index_length (of_rows c rs) (LSlice (mkSlice a b st)) = Ok (of_rows c rs') /\
                        sel_time false (Keep (slice_positions T a b 1)) rs rs').
  { intros a b st Hst Hfr Hle. eexists. split; [eapply time_slice; eauto|].
    cbn [sel_time]. apply Forall2_map_same. intros r Hr. specialize (Hlen _ Hr).
    destruct (frame_zero T mx a b 1) as [Z1 Z2]; auto; try lia.
    unfold row_keep. apply time_row_intro.
    - symmetry. apply frame_count; auto; lia.
    - intros E. apply Z1, memb_In. exact E.
    - intros Hp E. apply memb_In, Z2; auto. lia.
    - intros E. apply andb_true_iff in E as [E E2]. split; auto. exists (rlen r - 1). split; [|lia].
      apply (frame_In T mx a b 1); auto; try lia. now apply memb_In.
    - intros Hp He Hin _. rewrite He. cbn [andb]. apply memb_In. apply (frame_In T mx a b 1); auto; lia. }
  destruct H as [|i Hi|a b Hab|a b k Hk|l Hl|l Hl|b Hb].
  - congruence.
  - (* int *)
    cbn [to_lidx]. set (j := if i <? 0 then i + T else i).
    assert (Hj : 0 <= j) by (unfold j; destruct (i <? 0) eqn:E; lia).
    assert (EJ : index_length (of_rows c rs) (LInt i) = index_length (of_rows c rs) (LInt j)).
    { unfold j. destruct (i <? 0) eqn:E; auto. cbn in HS. destruct HS as [HS|HS]; [lia|].
      rewrite (index_int_neg c rs mx) by (auto; lia). do 2 f_equal. lia. }
    rewrite EJ, index_int_nonneg by auto. eexists. split; [reflexivity|].
    cbn [sel_time]. apply Forall2_map_same. intros r Hr. specialize (Hlen _ Hr).
    apply time_row_intro.
    + unfold count_real. cbn. destruct (j <? rlen r); reflexivity.
    + intros E. left. lia.
    + intros _ [E|[]]. lia.
    + intros E. apply andb_true_iff in E as [E E2]. split; auto. exists j. split; [now left|lia].
    + intros Hp He [Hin|[]] _. rewrite He. cbn [andb]. lia.
  - cbn [to_lidx]. cbn in HS. destruct HS as [HS1 HS2]. apply Hslice; auto.
  - cbn [to_lidx]. cbn in HS. destruct HS as [HS1 HS2].
    destruct (Z.eq_dec k 1) as [->|Hk1]; [apply Hslice; auto|].
    assert (b = None) as ->. { destruct k as [|[]|]; try lia; auto; congruence. }
    eexists. split.
    { rewrite (index_slice_strided c rs mx a k); auto. lia. }
    cbn [sel_time]. apply Forall2_map_same. intros r Hr. specialize (Hlen _ Hr).
    destruct (frame_zero T mx a None k) as [Z1 Z2]; auto; try lia.
    apply time_row_intro.
    + symmetry. apply frame_count; auto; lia.
    + intros E. apply Z1, memb_In. exact E.
    + intros Hp E. apply memb_In, Z2; auto. lia.
    + intros E. apply andb_true_iff in E as [E E3]. apply andb_true_iff in E as [E _]. split; auto.
      apply existsb_exists in E3 as (p & Hp & E3). exists p. split; [apply (frame_In T mx a None k); auto; lia|lia].
    + intros Hp He Hin _. rewrite He. cbn [andb]. apply andb_true_iff.
      assert (HI : In (rlen r - 1) (slice_positions mx a None k)) by (apply (frame_In T mx a None k); auto; lia).
      split; apply existsb_exists; exists (rlen r - 1); (split; [exact HI|lia]).
  - cbn [to_lidx]. cbn in HS. destruct HS as (HS1 & HS2 & HS3). apply Hlist; auto.
  - cbn [to_lidx]. cbn in HS. destruct HS as (HS1 & HS2 & HS3). apply Hlist; auto.
  - (* mask *)
    cbn [to_lidx sound_time] in *. rewrite index_mask_list.
    assert (Hp : forall p, In p (mask_positions b) -> 0 <= p < T).
    { unfold mask_positions. intros p Hp. apply filter_In in Hp as [Hp _]. apply positions_spec in Hp. lia. }
    assert (EM : map (fun i => if i <? 0 then i + T else i) (mask_positions b) = mask_positions b).
    { rewrite <- map_id. apply map_ext_in. intros p Hpp. specialize (Hp _ Hpp). now replace (p <? 0) with false by lia. }
    assert (EN : mask_positions b = nonzero_from 0 b).
    { change 0 with (Z.of_nat 0). rewrite nonzero_from_spec. unfold mask_positions, positions. rewrite filter_map_comm.
      unfold zlen. rewrite Nat2Z.id. f_equal. apply filter_ext. intros j. now rewrite Nat2Z.id, Nat.sub_0_r. }
    pattern (mask_positions b) at 2. rewrite <- EM. apply Hlist.
    + intros E. apply In_nth_error in HS as [j Hj].
      assert (Hin : In (Z.of_nat j) (mask_positions b)).
      { rewrite EN. apply nonzero_spec. rewrite Nat2Z.id. split; [|now apply nth_error_nth].
        assert (j < length b)%nat by (apply nth_error_Some; congruence). unfold zlen. lia. }
      rewrite E in Hin. destruct Hin.
    + left. apply Forall_forall. intros p Hpp. specialize (Hp _ Hpp). lia.
    + assert (EW : map (wrap_neg T) (mask_positions b) = mask_positions b).
      { rewrite <- map_id. apply map_ext_in. intros p Hpp. specialize (Hp _ Hpp). unfold wrap_neg. now replace (p <? 0) with false by lia. }
      rewrite EW, EN. intros i j x y Hi Hj Hij.
      eapply (proj1 (is_sorted_ascending_spec _) (nonzero_sorted b 0)); eauto.
    + apply Forall_forall. intros p Hpp. specialize (Hp _ Hpp). lia.
Qed.

(** Proofs about StreamMetadata.__getitem__ and __repr__. *)

From Coq Require Import String List ZArith Bool Lia.
From Coq Require Import ZifyBool.
From Verif Require Import Py Meta MetaSpec MetaProofs MetaLenProofs MetaSplitProofs MetaBatchProofs Named NamedSpec NamedProofs NamedSelProofs NamedIndexProofs
  NamedMetaProofs MetaIndex MetaIndexSpec.
Import ListNotations.
Open Scope Z_scope.

Lemma picks_bidx n i s : picks n i s -> e_bidx (EItem i) = to_bidx i /\ i <> INone /\ i <> IEll.
Proof. intros H. destruct H; (split; [reflexivity|]; split; discriminate). Qed.

Lemma batch_pick' c rs i s : picks (zlen rs) i s -> index_batch (of_rows c rs) (to_bidx i) = Ok (of_rows c (sel_rows s rs)).
Proof.
  intros H. pose proof (batch_pick c rs i s H) as B. unfold bix in B. destruct (is_full_slice i) eqn:E; auto.
  pose proof (proj2 (picks_full_iff _ _ _ H) E) as ->.
  inversion H; subst. cbn [to_bidx sel_rows]. rewrite index_batch_slice_default.
  do 2 f_equal. unfold slice_positions.
  assert (filter (in_slice (zlen rs) None None 1) (positions (zlen rs)) = positions (zlen rs)) as ->.
  { apply filter_all. intros p Hp. apply positions_spec in Hp. unfold in_slice, slice_lo, slice_hi, slice_end.
    rewrite Z.mod_1_r. lia. }
  unfold positions, zlen. rewrite Nat2Z.id. pose proof (at_positions_seq rs (length rs) 0) as A.
  cbn [skipn] in A. rewrite firstn_all in A. exact A.
Qed.

Lemma time_pick' c rs T mx i s : picks T i s -> is_max_len rs mx -> nonneg rs -> mx <= T -> sound_time T mx i ->
  exists rs', index_length (of_rows c rs) (to_lidx i) = Ok (of_rows c rs') /\ sel_time (fancy i) (steps T s) rs rs'.
Proof.
  intros H Hm Hn HT HS. destruct (is_full_slice i) eqn:E.
  - pose proof (proj2 (picks_full_iff _ _ _ H) E) as ->. inversion H; subst. cbn [steps to_lidx].
    pose proof (is_max_len_nonneg _ _ Hn Hm) as Hmx.
    eexists. split.
    { eapply time_slice with (T := T); eauto; cbn; [left; auto|lia]. }
    cbn [sel_time]. apply Forall2_map_same. intros r Hr.
    assert (Hlen : 0 <= rlen r <= mx) by (unfold nonneg in Hn; rewrite Forall_forall in Hn; split; [auto|apply Hm; auto]).
    assert (EP : forall n, 0 <= n -> slice_positions n None None 1 = positions n).
    { intros n Hn0. apply filter_all. intros p Hp. apply positions_spec in Hp. unfold in_slice, slice_lo, slice_hi, slice_end.
      rewrite Z.mod_1_r. lia. }
    unfold row_keep. apply time_row_intro.
    + rewrite <- (EP T) by lia. symmetry. apply frame_count; cbn; try lia; auto.
    + intros Eb. apply memb_In in Eb. rewrite EP in Eb by lia. apply positions_spec in Eb. apply positions_spec. lia.
    + intros Hp _. apply memb_In. rewrite EP by lia. apply positions_spec. lia.
    + intros Eb. apply andb_true_iff in Eb as [Eb E2]. split; auto. exists (rlen r - 1). split; [|lia].
      apply memb_In in E2. rewrite EP in E2 by lia. apply positions_spec in E2. apply positions_spec. lia.
    + intros Hp He _ _. rewrite He. cbn [andb]. apply memb_In. rewrite EP by lia. apply positions_spec. lia.
  - assert (s <> Full) as HF. { intros ->. pose proof (proj1 (picks_full_iff _ _ _ H) eq_refl). congruence. }
    destruct (time_pick c rs T mx i s H HF Hm Hn HT HS) as (rs' & E1 & E2). unfold lix in E1. rewrite E in E1.
    exists rs'. split; auto. destruct s; auto. congruence.
Qed.

(** A pair of items. *)
Lemma pair_is m tup i j : i <> INone -> j <> INone -> e_bidx (EItem i) = to_bidx i ->
  tup = true \/ e_int (EItem i) && e_int (EItem j) = false ->
  index_meta m (MSeq tup [EItem i; EItem j])
  = some_meta (bind (index_batch m (to_bidx i)) (fun m' => index_length m' (to_lidx j))).
Proof.
  intros Hi Hj Eb HT. unfold index_meta. cbn [forallb].
  destruct (e_int (EItem i) && (e_int (EItem j) && true)) eqn:E.
  - cbn [negb]. rewrite andb_true_r in E. destruct HT as [->|HT]; [|congruence]. rewrite Eb. reflexivity.
  - cbn [negb]. rewrite <- Eb. destruct i; try congruence; destruct j; try congruence; reflexivity.
Qed.

Lemma pair_rows c rs i j sb sl T mx tup : picks (zlen rs) i sb -> picks T j sl ->
  is_max_len (sel_rows sb rs) mx -> nonneg (sel_rows sb rs) -> mx <= T -> sound_time T mx j ->
  tup = true \/ e_int (EItem i) && e_int (EItem j) = false ->
  exists rs', index_meta (of_rows c rs) (MSeq tup [EItem i; EItem j]) = Ok (Some (of_rows c rs')) /\
    sel_time (fancy j) (steps T sl) (sel_rows sb rs) rs'.
Proof.
  intros Hi Hj Hm Hn HT HS Htup.
  destruct (picks_bidx _ _ _ Hi) as (Eb & N1 & _). destruct (picks_bidx _ _ _ Hj) as (_ & N2 & _).
  rewrite pair_is by auto. rewrite (batch_pick' c rs i sb Hi). cbn [bind].
  destruct (time_pick' c _ T mx j sl Hj Hm Hn HT HS) as (rs' & E1 & E2). rewrite E1. exists rs'. split; auto.
Qed.

Lemma left_none m tup i : i <> INone -> index_meta m (MSeq tup [EItem INone; EItem i]) = some_meta (index_length m (to_lidx i)).
Proof. intros H. destruct i; try congruence; reflexivity. Qed.

Lemma right_none m tup i : i <> IEll -> index_meta m (MSeq tup [EItem i; EItem INone]) = some_meta (index_batch m (to_bidx i)).
Proof. intros H. destruct i; try congruence; reflexivity. Qed.

Lemma one_item m i s n : picks n i s -> index_meta m (MOne i) = some_meta (index_batch m (to_bidx i)).
Proof. intros H; destruct H; reflexivity. Qed.

Lemma list_of_ints m l : index_meta m (MSeq false (map (fun k => EItem (IInt k)) l)) = some_meta (index_batch m (BInts l)).
Proof.
  unfold index_meta. assert (forallb e_int (map (fun k => EItem (IInt k)) l) = true) as -> by (induction l; auto). cbn [negb].
  assert (ints_of (map (fun k => EItem (IInt k)) l) = l) as ->; auto.
  induction l; cbn; auto. f_equal. exact IHl.
Qed.

(* ---- selecting streams and selecting steps commute *)

Lemma sel_rows_map f s rs : sel_rows s (map f rs) = map f (sel_rows s rs).
Proof. destruct s; cbn [sel_rows]; auto using at_positions_map. Qed.

Lemma sel_rows_incl s rs r : In r (sel_rows s rs) -> In r rs.
Proof.
  destruct s; cbn [sel_rows]; auto; unfold at_positions; intros H; apply in_flat_map in H as (p' & _ & H);
  destruct (nth_error rs (Z.to_nat p')) eqn:E; cbn in H; try tauto; destruct H as [<-|[]]; now apply nth_error_In in E.
Qed.

Lemma max_exists rs : rs <> [] -> exists mx, is_max_len rs mx.
Proof. intros H. destruct (max_length_exists false rs H) as (mx & _ & Hm). eauto. Qed.

Lemma wrap_nonneg mx ks : Forall (fun k => 0 <= k) ks -> map (wrap_neg mx) ks = ks.
Proof. intros H. induction H; cbn; auto. unfold wrap_neg at 1. replace (x <? 0) with false by lia. now rewrite IHForall. Qed.

Lemma mask_positions_nonneg b : Forall (fun k => 0 <= k) (mask_positions b).
Proof. apply Forall_forall. intros p H. unfold mask_positions in H. apply filter_In in H as [H _]. apply positions_spec in H. lia. Qed.

Lemma mask_positions_ascending b : ascending (mask_positions b).
Proof. rewrite <- nonzero_mask_positions. exact (proj1 (is_sorted_ascending_spec _) (nonzero_sorted b 0)). Qed.

Lemma mask_positions_nonempty b : In true b -> mask_positions b <> [].
Proof.
  intros H. apply In_nth_error in H as (k & H). intros E.
  assert (I : In (Z.of_nat k) (mask_positions b)).
  { unfold mask_positions. apply filter_In. split.
    - apply positions_spec. assert (k < length b)%nat by (apply nth_error_Some; congruence). unfold zlen. lia.
    - rewrite Nat2Z.id. now apply nth_error_nth. }
  rewrite E in I. destruct I.
Qed.

(** Absolute time indices act on each row by itself. *)
Lemma rowwise j : absolute j -> exists f, (forall r, rid (f r) = rid r /\ rch (f r) = rch r) /\
  forall c rs mx, nonneg rs -> is_max_len rs mx -> 0 < mx -> index_length (of_rows c rs) (to_lidx j) = Ok (of_rows c (map f rs)).
Proof.
  intros A.
  assert (L : forall ks, ks <> [] -> Forall (fun k => 0 <= k) ks -> ascending ks ->
    exists f, (forall r, rid (f r) = rid r /\ rch (f r) = rch r) /\
    forall c rs mx, nonneg rs -> is_max_len rs mx -> 0 < mx -> index_length (of_rows c rs) (LInts ks) = Ok (of_rows c (map f rs))).
  { intros ks K1 K2 K3.
    exists (fun r => mkRow (rid r) (rsos r && memb 0 ks)
                   (reos r && existsb (fun p => p <? rlen r) ks && existsb (fun p => rlen r <=? p) ks)
                   (count_real ks (rlen r)) (rch r)).
    split; [intros; split; reflexivity|]. intros c rs mx Hn Hm Hp.
    pose proof (index_list_exact c rs mx ks Hm K1) as I. cbn zeta in I. rewrite (wrap_nonneg mx ks K2) in I. apply I; auto.
    rewrite Forall_forall in K2. exact K2. }
  destruct j as [| |i|[a b st]|l|l|b|i]; cbn [absolute] in A; try tauto; cbn [to_lidx].
  - eexists (fun r => mkRow (rid r) (rsos r && (i =? 0)) (reos r && (rlen r <=? i + 1)) (if i <? rlen r then 1 else 0) (rch r)).
    split; [intros; split; reflexivity|]. intros c rs mx _ _ _. now apply index_int_nonneg.
  - destruct A as (A1 & A2 & A3 & A4).
    set (lo := match a with Some x => x | None => 0 end).
    set (lt := fun z => match b with Some y => z <? y | None => true end).
    exists (fun r => mkRow (rid r) (rsos r && ((lo =? 0) && lt 0)) (reos r && ((lo <=? rlen r - 1) && lt (rlen r - 1)))
                       (Z.max 0 (match b with Some y => Z.min y (rlen r) | None => rlen r end - lo)) (rch r)).
    split; [intros; split; reflexivity|]. intros c rs mx Hn Hm Hp.
    assert (LH : slice_lo mx a <= slice_hi mx b).
    { unfold slice_lo, slice_hi, slice_end. destruct a as [x|], b as [y|]; cbn [nonneg_end] in *;
      repeat match goal with |- context [?x <? 0] => replace (x <? 0) with false by lia end; lia. }
    assert (index_length (of_rows c rs) (LSlice (mkSlice a b st)) = index_length (of_rows c rs) (LSlice (mkSlice a b (Some 1)))) as ->.
    { destruct A3 as [-> | ->]; [eapply index_slice_none; eauto|reflexivity]. }
    rewrite (index_slice_step1 c rs mx a b) by (auto; lia). f_equal. apply of_rows_ext. intros r Hr.
    assert (Hlen : 0 <= rlen r <= mx) by (unfold nonneg in Hn; rewrite Forall_forall in Hn; split; [auto|apply Hm; auto]).
    unfold row_keep. rewrite !slice_positions_range by lia.
    pose proof (slice_lo_bounds mx a ltac:(lia)). pose proof (slice_hi_bounds mx b ltac:(lia)).
    rewrite !memb_py_range, count_real_range by lia. rewrite !Z.mod_1_r.
    replace (Z.min (slice_hi mx b) (rlen r) - slice_lo mx a + 1 - 1) with
      (Z.min (slice_hi mx b) (rlen r) - slice_lo mx a) by lia. rewrite Z.div_1_r.
    unfold slice_lo, slice_hi, slice_end, lt, lo in *. destruct a as [x|], b as [y|]; cbn [nonneg_end] in *;
      repeat match goal with |- context [?x <? 0] => replace (x <? 0) with false by lia end; f_equal; lia.
  - apply L; tauto.
  - apply L; tauto.
  - destruct (L (mask_positions b)) as (f & F1 & F2); auto using mask_positions_nonneg, mask_positions_ascending, mask_positions_nonempty.
    exists f. split; auto. intros c rs mx H1 H2 H3. rewrite index_mask_list. eauto.
Qed.

Lemma absolute_not_none j : absolute j -> j <> INone.
Proof. intros H ->. exact H. Qed.

Lemma zlen_map_rows (f : row -> row) rs : zlen (map f rs) = zlen rs.
Proof. apply zlen_map. Qed.

Lemma swap c rs i j sb : picks (zlen rs) i sb -> absolute j -> nonneg rs -> Exists (fun r => 0 < rlen r) (sel_rows sb rs) ->
  exists rs', index_meta (of_rows c rs) (MSeq true [EItem i; EItem j]) = Ok (Some (of_rows c rs')) /\
  bind (index_batch (of_rows c rs) (to_bidx i)) (fun m => index_length m (to_lidx j)) = Ok (of_rows c rs') /\
  bind (index_length (of_rows c rs) (to_lidx j)) (fun m => index_batch m (to_bidx i)) = Ok (of_rows c rs').
Proof.
  intros Hi Hj Hn HE. destruct (rowwise j Hj) as (f & _ & F). destruct (picks_bidx _ _ _ Hi) as (Eb & N1 & _).
  assert (HnS : nonneg (sel_rows sb rs)).
  { unfold nonneg in *. rewrite Forall_forall in *. intros r Hr. apply Hn. eapply sel_rows_incl; eauto. }
  apply Exists_exists in HE as (r0 & Hr0 & Hp0).
  assert (M : forall l, nonneg l -> In r0 l -> index_length (of_rows c l) (to_lidx j) = Ok (of_rows c (map f l))).
  { intros l Hl Hin. destruct (max_exists l) as (mx & Hm); [intros ->; destruct Hin|]. apply (F c l mx); auto.
    destruct Hm as [_ Hm]. specialize (Hm _ Hin). lia. }
  exists (map f (sel_rows sb rs)).
  assert (E2 : bind (index_batch (of_rows c rs) (to_bidx i)) (fun m => index_length m (to_lidx j)) = Ok (of_rows c (map f (sel_rows sb rs)))).
  { rewrite (batch_pick' c rs i sb Hi). cbn [bind]. auto. }
  split; [|split; auto].
  - rewrite pair_is by (auto using absolute_not_none). now rewrite E2.
  - rewrite M by (auto; eapply sel_rows_incl; eauto). cbn [bind].
    rewrite (batch_pick' c (map f rs) i sb) by (rewrite zlen_map; auto). now rewrite sel_rows_map.
Qed.

(* ---- __repr__ *)

Section Repr.
Context (rl : string -> Z).
Context (Hrl : forall s, Z.of_nat (String.length s) <= rl s).

Definition total (ids : list string) : Z := zsum (map rl ids).

Lemma rl_nonneg s : 0 <= rl s.
Proof. specialize (Hrl s). lia. Qed.

Lemma total_len ids : zsum (map (fun s => Z.of_nat (String.length s)) ids) <= total ids.
Proof. unfold total, zsum. induction ids as [|a l IH]; cbn [map fold_right]; [lia|]. specialize (Hrl a). lia. Qed.

Lemma total_nonneg ids : 0 <= total ids.
Proof. unfold total, zsum. induction ids as [|a l IH]; cbn [map fold_right]; [lia|]. pose proof (rl_nonneg a). lia. Qed.

Lemma nth_split_two {A} (l : list A) i a b : nth_error l i = Some a -> nth_error l (S i) = Some b -> firstn (S i) l = firstn i l ++ [a].
Proof.
  revert i; induction l as [|x l IH]; intros [|i] H1 H2; cbn in *; try discriminate.
  - now injection H1 as <-.
  - f_equal. apply IH; auto.
Qed.

(** Invariant of the loop: [acc] are the first i ids and [len] counts the first i + 1. *)
Lemma show_loop_ok ids lastw : 80 < total ids -> 0 <= lastw ->
  forall fuel i len, (1 <= i)%nat -> (S i <= length ids)%nat -> (length ids < fuel + i)%nat ->
  len = total (firstn (S i) ids) + lastw + 7 + 2 * (Z.of_nat i - 1) ->
  exists k, (i <= k)%nat /\ (S k <= length ids)%nat /\ show_loop rl ids fuel i len (firstn i ids) = Ok (firstn k ids) /\
    ((i < k)%nat -> total (firstn k ids) + lastw + 7 + 2 * (Z.of_nat k - 2) < 80).
Proof.
  intros Ht Hw. induction fuel as [|fuel IH]; intros i len H1 H2 H3 Hl; [lia|].
  cbn [show_loop]. destruct (len <? 80) eqn:E.
  2:{ exists i. split; [lia|]. split; [lia|]. split; auto. lia. }
  assert (L : (S (S i) <= length ids)%nat).
  { destruct (Nat.eq_dec (S i) (length ids)) as [Ei|]; [|lia]. exfalso. rewrite Ei, firstn_all in Hl. lia. }
  destruct (nth_error ids i) as [a|] eqn:Ea; [|apply nth_error_None in Ea; lia].
  destruct (nth_error ids (S i)) as [b|] eqn:Eb; [|apply nth_error_None in Eb; lia].
  assert (Fa : firstn (S i) ids = firstn i ids ++ [a]) by (eapply nth_split_two; eauto).
  destruct (IH (S i) (len + rl b + 2)) as (k & K1 & K2 & K3 & K4); try lia.
  { assert (Fb : firstn (S (S i)) ids = firstn (S i) ids ++ [b]).
    { destruct (nth_error ids (S (S i))) as [d|] eqn:Ed; [eapply nth_split_two; eauto|].
      apply nth_error_None in Ed. rewrite firstn_all2 by lia.
      rewrite <- (firstn_skipn (S i) ids) at 1. f_equal. rewrite (skipn_nth _ _ _ Eb). f_equal. apply skipn_all2. lia. }
    rewrite Fb. unfold total in *. rewrite map_app, zsum_app. unfold zsum in *. cbn [map fold_right] in *. lia. }
  rewrite Fa in K3. exists k. split; [lia|]. split; [lia|]. split; [exact K3|].
  intros _. destruct (Nat.eq_dec k (S i)) as [->|Nk]; [|apply K4; lia]. lia.
Qed.

Lemma show_ids_many ids : (2 <= length ids)%nat ->
  (zsum (map (fun s => Z.of_nat (String.length s)) ids) <= 80 /\ show_ids rl ids = Ok (All ids)) \/
  (80 < zsum (map (fun s => Z.of_nat (String.length s)) ids) /\ exists p q z, ids = p ++ q ++ [z] /\ p <> [] /\ show_ids rl ids = Ok (Some_first p z) /\
     ((2 <= length p)%nat -> total p + rl z + 7 + 2 * (zlen p - 2) < 80)).
Proof.
  intros H. unfold show_ids. destruct (zsum (map (fun s => Z.of_nat (String.length s)) ids) >? 80) eqn:E; [right|left; split; [lia|auto]].
  split; [lia|]. destruct ids as [|a [|b t]]; cbn [length] in H; try lia.
  set (l := a :: b :: t) in *. change (nth_error l 1) with (Some b). cbn iota beta.
  pose proof (total_len l) as TL. assert (HL : (2 <= length l)%nat) by (unfold l; cbn [length]; lia).
  destruct (show_loop_ok l (rl (last l a)) ltac:(lia) (rl_nonneg _) (S (length l)) 1 (rl a + rl (last l a) + 7 + rl b))
    as (k & K1 & K2 & K3 & K4); try lia; try (cbn; lia).
  change (firstn 1 l) with [a] in K3. rewrite K3. cbn [bind].
  assert (SK : skipn k l <> []) by (intros X; apply (f_equal (@length _)) in X; rewrite skipn_length in X; cbn [length] in X; lia).
  destruct (exists_last SK) as (q & z & Eq).
  assert (El : l = firstn k l ++ q ++ [z]) by (rewrite <- Eq; symmetry; apply firstn_skipn).
  exists (firstn k l), q, z. split; [exact El|]. split.
  { intros X. apply (f_equal (@length _)) in X. rewrite firstn_length in X. cbn [length] in X. lia. }
  assert (last l a = z) as EL. { rewrite El, app_assoc. apply last_last. }
  rewrite EL in *. split; [reflexivity|]. rewrite firstn_length. intros Hk.
  assert (KL : zlen (firstn k l) = Z.of_nat k) by (unfold zlen; rewrite firstn_length; lia). rewrite KL. apply K4. lia.
Qed.
End Repr.

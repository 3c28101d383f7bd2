(** Proofs about gather and take_along_dim. *)

From Coq Require Import String List ZArith Bool Lia.
From Coq Require Import ZifyBool.
From Verif Require Import Py Meta MetaSpec MetaProofs MetaLenProofs Named NamedSpec NamedProofs NamedSelProofs
  NamedIndexProofs NamedMetaProofs NamedGetProofs NamedOpsProofs NamedSplitProofs Gather GatherSpec.
Import ListNotations.
Open Scope Z_scope.

Lemma Forall2_len {A B} (R : A -> B -> Prop) l l' : Forall2 R l l' -> length l = length l'.
Proof. induction 1; cbn; auto. Qed.

Lemma dim_positions_In n i : In i (dim_positions n) <-> 0 <= i < n.
Proof.
  unfold dim_positions. rewrite in_map_iff. split.
  - intros (k & <- & Hk). apply in_seq in Hk. lia.
  - intros H. exists (Z.to_nat i). split; [lia|]. apply in_seq. lia.
Qed.

Lemma all_positions_In s : forall p, In p (all_positions s) <-> in_range s p.
Proof.
  induction s as [|n s IH]; intros p; cbn [all_positions].
  - split; [intros [<-|[]]; constructor|]. intros H. inversion H. now left.
  - rewrite in_flat_map. split.
    + intros (i & Hi & Hp). apply in_map_iff in Hp as (q & <- & Hq). apply dim_positions_In in Hi.
      constructor; [exact Hi|]. now apply IH.
    + intros H. inversion H as [|? i ? q Hi Hq E1 E2]; subst. exists i. split; [now apply dim_positions_In|].
      apply in_map. now apply IH.
Qed.

Lemma is_empty_range s p : is_empty s = true -> ~ in_range s p.
Proof.
  unfold is_empty. rewrite existsb_exists. intros (n & Hn & E) H.
  apply In_nth_error in Hn as [d Hd].
  revert d p H Hd. induction s as [|m s IH]; intros d p H Hd; [destruct d; discriminate|].
  inversion H as [|? i ? q Hi Hq]; subst. destruct d; cbn in Hd.
  - injection Hd as ->. lia.
  - eapply IH; eauto.
Qed.

Lemma entries_ok_iff ix n : entries_ok ix n = true <-> (forall p, in_range (shp ix) p -> 0 <= at_ ix p < n).
Proof.
  unfold entries_ok. rewrite forallb_forall. split; intros H p Hp.
  - apply all_positions_In in Hp. apply H in Hp. lia.
  - apply all_positions_In in Hp. apply H in Hp. lia.
Qed.

Lemma leb_list a : forall b, list_eqb Z.leb a b = true <-> Forall2 Z.le a b.
Proof.
  induction a as [|x a IH]; intros [|y b]; cbn [list_eqb]; split; intros H.
  - constructor.
  - reflexivity.
  - discriminate.
  - inversion H.
  - discriminate.
  - inversion H.
  - apply andb_true_iff in H as [H1 H2]. constructor; [lia|]. now apply IH.
  - inversion H; subst. apply andb_true_intro. split; [lia|]. now apply IH.
Qed.

Lemma Forall2_nth_le a b : Forall2 Z.le a b -> forall e m n, nth_error a e = Some m -> nth_error b e = Some n -> m <= n.
Proof.
  induction 1 as [|p q a b Hpq H IH]; intros [|e] m n E1 E2; cbn in E1, E2; try discriminate.
  - injection E1 as <-. injection E2 as <-. exact Hpq.
  - exact (IH e m n E1 E2).
Qed.

Lemma fits_but_iff a : forall d b, (d < length b)%nat -> fits_but d a b = true <->
  length a = length b /\ (forall e m n, nth_error a e = Some m -> nth_error b e = Some n -> e <> d -> m <= n).
Proof.
  induction a as [|x a IH]; intros d [|y b] Hd; cbn [fits_but length] in *; [lia| |lia|].
  - split; [intros H; discriminate H|]. intros [H _]. discriminate H.
  - destruct d as [|d].
    + rewrite leb_list. split.
      * intros H. split; [now rewrite (Forall2_len _ _ _ H)|]. intros [|e] m n E1 E2 Hne; [lia|]. cbn in E1, E2.
        exact (Forall2_nth_le _ _ H e m n E1 E2).
      * intros [HL H].
        assert (H' : forall e m n, nth_error a e = Some m -> nth_error b e = Some n -> m <= n).
        { intros e m n E1 E2. apply (H (S e) m n); auto. }
        clear IH H Hd. assert (HL' : length a = length b) by lia. clear HL.
        revert b HL' H'. induction a as [|p a IHa]; intros [|q b] HL H; try discriminate; constructor.
        -- apply (H O); reflexivity.
        -- apply IHa; [cbn in HL; lia|]. intros e m n E1 E2. apply (H (S e)); auto.
    + rewrite andb_true_iff, IH by lia. split.
      * intros [H0 [HL H]]. split; [lia|]. intros [|e] m n E1 E2 Hne; cbn in E1, E2.
        -- injection E1 as ->. injection E2 as ->. lia.
        -- apply (H e m n); auto.
      * intros [HL H]. split; [apply Z.leb_le; apply (H O x y); auto|]. split; [lia|].
        intros e m n E1 E2 Hne. apply (H (S e) m n); auto.
Qed.

Lemma list_set_put p : forall k i, (k < length p)%nat -> list_set p k i = put k i p.
Proof.
  unfold put. induction p as [|a p IH]; intros [|k] i H; cbn in *; try lia; [reflexivity|].
  f_equal. apply IH. lia.
Qed.

Lemma put_length k i p : (k < length p)%nat -> length (put k i p) = length p.
Proof. intros H. unfold put. rewrite app_length. cbn [length]. rewrite firstn_length, skipn_length. lia. Qed.

Lemma put_nth k i p d : (k < length p)%nat -> nth d (put k i p) 0 = if Nat.eqb d k then i else nth d p 0.
Proof.
  unfold put. revert k d. induction p as [|a p IH]; intros [|k] d H; cbn [length] in H; try lia.
  - destruct d; reflexivity.
  - destruct d as [|d]; [reflexivity|]. cbn [firstn skipn app nth Nat.eqb]. apply IH. lia.
Qed.

(* ---------- positions ---------- *)

Lemma memb_positions n p : memb p (positions n) = (0 <=? p) && (p <? n).
Proof.
  destruct (memb p (positions n)) eqn:E; symmetry.
  - apply memb_In in E. unfold positions in E. apply dim_positions_In in E. lia.
  - destruct ((0 <=? p) && (p <? n)) eqn:F; [|reflexivity]. exfalso.
    assert (In p (positions n)) by (apply dim_positions_In; lia). apply memb_In in H. congruence.
Qed.

Lemma firstn_at_slice {A} (l : list A) n : 0 <= n ->
  at_positions l (slice_positions (zlen l) None (Some n) 1) = firstn (Z.to_nat n) l.
Proof.
  intros H'.
  assert (Hm : slice_positions (zlen l) None (Some n) 1 = slice_positions (zlen l) None (Some (Z.min n (zlen l))) 1).
  { unfold slice_positions, in_slice, slice_hi, slice_end. replace (n <? 0) with false by lia.
    replace (Z.min n (zlen l) <? 0) with false by (unfold zlen; lia). now rewrite Z.min_l with (n := Z.min n (zlen l)) by lia. }
  rewrite Hm. clear Hm.
  replace (firstn (Z.to_nat n) l) with (firstn (Z.to_nat (Z.min n (zlen l))) l).
  2: { destruct (Z.le_gt_cases n (zlen l)); [now rewrite Z.min_l by lia|].
       rewrite Z.min_r by lia. rewrite !firstn_all2; [reflexivity|unfold zlen in *; lia|unfold zlen in *; lia]. }
  assert (H : 0 <= Z.min n (zlen l) <= zlen l) by (unfold zlen; lia). clear H'. revert H. generalize (Z.min n (zlen l)). clear n. intros n H.
  assert (E : slice_positions (zlen l) None (Some n) 1 = positions n).
  { rewrite slice_positions_range by lia.
    unfold slice_lo, slice_hi, slice_end. replace (n <? 0) with false by lia. rewrite Z.min_l by lia.
    unfold py_range, positions, range_len. rewrite Z.sub_0_r. change (0 <? 1) with true. cbv iota.
    replace (Z.to_nat ((n + 1 - 1) / 1)) with (Z.to_nat n) by (rewrite Z.div_1_r; lia).
    apply map_ext. intros; lia. }
  rewrite E. clear E. unfold positions, at_positions.
  assert (Hn : (Z.to_nat n <= length l)%nat) by (unfold zlen in H; lia). revert Hn. generalize (Z.to_nat n) as k. clear H n.
  intros k Hk. rewrite flat_map_concat_map, map_map.
  assert (G : forall (pre l : list A) k, (k <= length l)%nat ->
    concat (map (fun x => match nth_error (pre ++ l) (Z.to_nat (Z.of_nat x)) with Some a => [a] | None => [] end) (seq (length pre) k)) = firstn k l).
  { clear. intros pre l k. revert pre l. induction k as [|k IH]; intros pre l H; [reflexivity|].
    destruct l as [|a l]; [cbn in H; lia|]. cbn [seq map concat firstn]. rewrite Nat2Z.id, nth_error_app2, Nat.sub_diag by lia.
    cbn [nth_error app]. f_equal. specialize (IH (pre ++ [a]) l ltac:(cbn in H; lia)).
    rewrite app_length in IH. cbn [length] in IH. rewrite Nat.add_1_r in IH. rewrite <- IH, <- app_assoc. reflexivity. }
  exact (G [] l k Hk).
Qed.

(* ---------- metadata ---------- *)

Lemma cut_self T r : 0 <= rlen r <= T -> cut_row T r r.
Proof.
  intros H. unfold cut_row. repeat apply conj; auto; lia.
Qed.

Lemma cut_length c rs T n : nonneg rs -> Forall (fun r => rlen r <= T) rs -> rs <> [] -> 0 <= n ->
  exists rs', index_length (of_rows c rs) (LSlice (mkSlice None (Some n) None)) = Ok (of_rows c rs') /\ Forall2 (cut_row n) rs rs'.
Proof.
  intros Hnn Hf Hne Hn. destruct (max_length_exists c rs Hne) as (mx & _ & Hmax).
  pose proof (is_max_len_nonneg _ _ Hnn Hmax) as Hmx.
  rewrite (index_slice_none c rs mx) by auto. rewrite (index_slice_raw c rs mx) by (auto; lia).
  eexists. split; [reflexivity|]. apply Forall2_map_same. intros r Hr.
  unfold nonneg in Hnn. rewrite Forall_forall in Hnn. pose proof (Hnn r Hr) as H0. destruct Hmax as [_ Hmax]. pose proof (Hmax r Hr) as H1.
  unfold slice_lo, slice_hi, slice_end. replace (n <? 0) with false by lia. change (1 =? 1) with true. cbv iota.
  unfold cut_row, clip. cbn [rid rsos reos rlen rch]. repeat apply conj; try reflexivity; lia.
Qed.

Lemma firstn_sub {A} n (l : list A) a : In a (firstn n l) -> In a l.
Proof. intros H. rewrite <- (firstn_skipn n l). apply in_or_app. now left. Qed.

(** The metadata part of gather. *)
Lemma cut_pair c rs T b n : nonneg rs -> Forall (fun r => rlen r <= T) rs -> 0 <= b -> 0 <= n ->
  (n = T \/ firstn (Z.to_nat b) rs <> []) ->
  exists rs', index_pair (of_rows c rs)
      (if b =? zlen rs then BNone else BSlice (mkSlice None (Some b) None))
      (if n =? T then LNone else LSlice (mkSlice None (Some n) None)) = Ok (of_rows c rs') /\
    Forall2 (cut_row n) (firstn (Z.to_nat b) rs) rs' /\ (n = T -> rs' = firstn (Z.to_nat b) rs).
Proof.
  intros Hnn Hf Hb Hn Hg. unfold index_pair.
  assert (E : index_batch (of_rows c rs) (if b =? zlen rs then BNone else BSlice (mkSlice None (Some b) None))
              = Ok (of_rows c (firstn (Z.to_nat b) rs))).
  { destruct (b =? zlen rs) eqn:E.
    - rewrite firstn_all2 by (unfold zlen in *; lia). reflexivity.
    - rewrite index_batch_slice_default, firstn_at_slice by lia. reflexivity. }
  rewrite E. cbn [bind]. clear E.
  assert (Hnn' : nonneg (firstn (Z.to_nat b) rs)).
  { unfold nonneg in *. rewrite Forall_forall in *. intros r Hr. apply Hnn. eapply firstn_sub; eauto. }
  assert (Hf' : Forall (fun r => rlen r <= T) (firstn (Z.to_nat b) rs)).
  { rewrite Forall_forall in *. intros r Hr. apply Hf. eapply firstn_sub; eauto. }
  destruct (n =? T) eqn:E.
  - exists (firstn (Z.to_nat b) rs). split; [reflexivity|]. split; [|auto].
    assert (n = T) by lia. subst n.
    rewrite <- (map_id (firstn (Z.to_nat b) rs)) at 2. apply Forall2_map_same.
    intros r Hr. apply cut_self. unfold nonneg in Hnn'. rewrite Forall_forall in Hnn', Hf'. auto.
  - destruct Hg as [Hg|Hg]; [lia|]. destruct (cut_length c _ T n Hnn' Hf' Hg) as (rs' & E1 & E2); [lia|].
    exists rs'. split; [exact E1|]. split; [exact E2|]. intros; lia.
Qed.

Section Gather.
Context {V : Type}.
Implicit Types (x y : @stensor V) (t : @tensor V).

Lemma torch_gather_ok t k (ix : @tensor Z) : (k < length (shp t))%nat -> Forall (fun n => 0 <= n) (shp t) -> ix_fits k (shp t) ix ->
  exists t', torch_gather t k ix = Ok t' /\ gathered k t ix t'.
Proof.
  intros Hk Hs [HR HS HE]. unfold torch_gather, gathered. destruct (is_empty (shp ix)) eqn:E.
  - eexists. split; [reflexivity|]. split; [reflexivity|]. intros p Hp. exfalso. eapply is_empty_range; eauto.
  - assert (F : fits_but k (shp ix) (shp t) = true).
    { apply fits_but_iff; [exact Hk|]. split; [exact HR|]. intros e m n E1 E2 Hne. destruct (HS e m n E1 E2). auto. }
    rewrite F. cbn [negb].
    assert (G : entries_ok ix (size t k) = true).
    { apply entries_ok_iff. intros p Hp. apply HE; [exact Hp|]. unfold size. now apply nth_error_nth'. }
    rewrite G. cbn [negb]. eexists. split; [reflexivity|]. split; [reflexivity|]. intros p Hp. cbn [at_].
    rewrite list_set_put; [reflexivity|]. apply Forall2_len in Hp. lia.
Qed.

Lemma names_at x bd ld c rs T d k : stream_ok x bd ld c rs T -> denotes (length (shp (tn x))) d k ->
  exists n, py_getitem (names x) d = Ok n /\ nth_error (names x) k = Some n.
Proof.
  intros H [Hk Hd]. rewrite <- (so_rank _ _ _ _ _ _ H) in Hk, Hd.
  destruct (nth_error (names x) k) as [n|] eqn:E; [|apply nth_error_None in E; lia].
  exists n. split; [|reflexivity]. unfold py_getitem, zlen.
  destruct Hd as [-> | ->].
  - replace (Z.of_nat k <? 0) with false by lia. cbv zeta iota. replace (Z.of_nat k <? 0) with false by lia.
    now rewrite Nat2Z.id, E.
  - replace (Z.of_nat k - Z.of_nat (length (names x)) <? 0) with true by lia. cbv zeta iota.
    replace (Z.of_nat k - Z.of_nat (length (names x)) + Z.of_nat (length (names x))) with (Z.of_nat k) by lia.
    replace (Z.of_nat k <? 0) with false by lia. now rewrite Nat2Z.id, E.
Qed.

Lemma names_index_sizes x bd ld c rs T : stream_ok x bd ld c rs T ->
  names_index (Some BATCH) (names x) = Ok bd /\ names_index (Some LENGTH) (names x) = Ok ld /\
  size (tn x) bd = zlen rs /\ size (tn x) ld = T.
Proof.
  intros H. destruct H as [HR HD Hn HB HL HBs HLs HM Hnn Hfit].
  unfold BATCH, LENGTH. rewrite (names_index_ok _ _ _ HB HD), (names_index_ok _ _ _ HL HD).
  unfold size. repeat apply conj; auto; now apply nth_error_nth.
Qed.

(** What the override makes of the result [t'] of the torch function. *)
Lemma gather_with_eq f x bd ld c rs T d k (ix : @tensor Z) b n t' : stream_ok x bd ld c rs T ->
  denotes (length (shp (tn x))) d k -> k <> bd -> k <> ld -> f (tn x) k ix = Ok t' ->
  length (shp t') = length (shp (tn x)) ->
  nth_error (shp ix) bd = Some b -> nth_error (shp ix) ld = Some n ->
  gather_with f x d (mkIx ix false)
  = do m' <- index_pair (of_rows c rs) (if b =? zlen rs then BNone else BSlice (mkSlice None (Some b) None))
                                       (if n =? T then LNone else LSlice (mkSlice None (Some n) None));
    Ok (mkSt t' (names x) m').
Proof.
  intros H Hd Hkb Hkl Hf Hr Hb Hn.
  destruct (names_index_sizes _ _ _ _ _ _ H) as (IB & IL & SB & SL).
  destruct (names_at _ _ _ _ _ _ _ _ H Hd) as (nm & E1 & E2).
  unfold gather_with. cbn [ix_stream ix_tn].
  rewrite (proj2 (norm_dim_denotes (ndim (tn x)) d k) Hd). cbn [bind]. rewrite Hf. cbn [bind]. rewrite E1. cbn [bind].
  assert (EN : dname_eqb nm (Some LENGTH) || dname_eqb nm (Some BATCH) = false).
  { apply orb_false_iff. split.
    - destruct (dname_eqb nm (Some LENGTH)) eqn:E; [|reflexivity]. apply dname_eqb_eq in E. subst nm. exfalso. apply Hkl.
      exact (so_distinct _ _ _ _ _ _ H _ _ _ E2 (so_lname _ _ _ _ _ _ H)).
    - destruct (dname_eqb nm (Some BATCH)) eqn:E; [|reflexivity]. apply dname_eqb_eq in E. subst nm. exfalso. apply Hkb.
      exact (so_distinct _ _ _ _ _ _ H _ _ _ E2 (so_bname _ _ _ _ _ _ H)). }
  rewrite EN. unfold cut_index, size_at. rewrite IB, IL, Hb, Hn. cbn [bind]. rewrite SB, SL.
  rewrite (rename_ok (ndim t') (names x));
    [|unfold ndim; rewrite Hr; exact (so_rank _ _ _ _ _ _ H)|exact (so_distinct _ _ _ _ _ _ H)]. cbn [bind].
  rewrite (so_meta _ _ _ _ _ _ H). unfold slice_upto.
  destruct (b =? zlen rs) eqn:Eb; destruct (n =? T) eqn:En; reflexivity.
Qed.

Lemma gather_with_ok f x bd ld c rs T d k (ix : @tensor Z) b n t' : stream_ok x bd ld c rs T ->
  denotes (length (shp (tn x))) d k -> k <> bd -> k <> ld -> f (tn x) k ix = Ok t' ->
  length (shp t') = length (shp (tn x)) ->
  nth_error (shp ix) bd = Some b -> nth_error (shp ix) ld = Some n -> 0 <= b -> 0 <= n ->
  (n = T \/ firstn (Z.to_nat b) rs <> []) ->
  exists y rs', gather_with f x d (mkIx ix false) = Ok y /\ names y = names x /\ tn y = t' /\
    smeta y = of_rows c rs' /\ Forall2 (cut_row n) (firstn (Z.to_nat b) rs) rs' /\ (n = T -> rs' = firstn (Z.to_nat b) rs).
Proof.
  intros H Hd Hkb Hkl Hf Hr Hb Hn Rb Rn Hg.
  destruct (cut_pair c rs T b n (so_nonneg _ _ _ _ _ _ H) (so_fit _ _ _ _ _ _ H) Rb Rn Hg) as (rs' & EP & F & G).
  exists (mkSt t' (names x) (of_rows c rs')), rs'. split; [|cbn [names tn smeta]; auto].
  rewrite (gather_with_eq f x bd ld c rs T d k ix b n t') by auto. now rewrite EP.
Qed.

(** No stream is kept and the length is cut: no result. *)
Lemma gather_with_none f x bd ld c rs T d k (ix : @tensor Z) b n t' : stream_ok x bd ld c rs T ->
  denotes (length (shp (tn x))) d k -> k <> bd -> k <> ld -> f (tn x) k ix = Ok t' ->
  length (shp t') = length (shp (tn x)) ->
  nth_error (shp ix) bd = Some b -> nth_error (shp ix) ld = Some n -> 0 <= b -> n <> T -> firstn (Z.to_nat b) rs = [] ->
  exists e, gather_with f x d (mkIx ix false) = Err e.
Proof.
  intros H Hd Hkb Hkl Hf Hr Hb Hn Rb Hne Hg.
  rewrite (gather_with_eq f x bd ld c rs T d k ix b n t') by auto. unfold index_pair.
  assert (E : index_batch (of_rows c rs) (if b =? zlen rs then BNone else BSlice (mkSlice None (Some b) None)) = Ok (of_rows c [])).
  { destruct (b =? zlen rs) eqn:E.
    - rewrite firstn_all2 in Hg by (unfold zlen in *; lia). now subst rs.
    - rewrite index_batch_slice_default, firstn_at_slice by lia. now rewrite Hg. }
  rewrite E. cbn [bind]. replace (n =? T) with false by lia. eexists. reflexivity.
Qed.

(** C54: gather along a dimension that is neither batch nor length. *)
Lemma gather_ok x bd ld c rs T d k (ix : @tensor Z) b n : stream_ok x bd ld c rs T ->
  denotes (length (shp (tn x))) d k -> k <> bd -> k <> ld -> ix_fits k (shp (tn x)) ix ->
  nth_error (shp ix) bd = Some b -> nth_error (shp ix) ld = Some n -> (n = T \/ firstn (Z.to_nat b) rs <> []) ->
  exists y rs', gather x d (mkIx ix false) = Ok y /\ names y = names x /\ gathered k (tn x) ix (tn y) /\
    smeta y = of_rows c rs' /\ Forall2 (cut_row n) (firstn (Z.to_nat b) rs) rs' /\ (n = T -> rs' = firstn (Z.to_nat b) rs).
Proof.
  intros H Hd Hkb Hkl Hfit Hb Hn Hg.
  destruct (torch_gather_ok (tn x) k ix) as (t' & Ef & G); [apply Hd|exact (so_sizes _ _ _ _ _ _ H)|exact Hfit|].
  destruct (if_sizes _ _ _ Hfit bd b _ Hb (so_bsize _ _ _ _ _ _ H)) as [B1 B2].
  destruct (if_sizes _ _ _ Hfit ld n _ Hn (so_lsize _ _ _ _ _ _ H)) as [L1 L2].
  destruct (gather_with_ok torch_gather x bd ld c rs T d k ix b n t') as (y & rs' & E & N & Et & R); auto.
  { destruct G as [-> _]. exact (if_rank _ _ _ Hfit). }
  exists y, rs'. split; [exact E|]. split; [exact N|]. split; [now rewrite Et|exact R].
Qed.

(** Along batch or length there is never a result. *)
Lemma gather_with_refuses f x bd ld c rs T d k ix : stream_ok x bd ld c rs T ->
  denotes (length (shp (tn x))) d k -> k = bd \/ k = ld -> exists e, gather_with f x d ix = Err e.
Proof.
  intros H Hd Hk. destruct (names_at _ _ _ _ _ _ _ _ H Hd) as (nm & E1 & E2).
  unfold gather_with. destruct (ix_stream ix); [eexists; reflexivity|].
  rewrite (proj2 (norm_dim_denotes (ndim (tn x)) d k) Hd). cbn [bind].
  destruct (f (tn x) k (ix_tn ix)); [|eexists; reflexivity]. cbn [bind]. rewrite E1. cbn [bind].
  assert (EN : dname_eqb nm (Some LENGTH) || dname_eqb nm (Some BATCH) = true).
  { destruct Hk as [-> | ->].
    - rewrite (so_bname _ _ _ _ _ _ H) in E2. injection E2 as <-. reflexivity.
    - rewrite (so_lname _ _ _ _ _ _ H) in E2. injection E2 as <-. reflexivity. }
  rewrite EN. eexists. reflexivity.
Qed.

End Gather.

(* ---------- take_along_dim ---------- *)

Lemma bcast_size_iff a b r : bcast_size a b = Ok r <-> bcast1 a b r.
Proof.
  unfold bcast_size. split.
  - destruct (a =? b) eqn:E1; [intros H; injection H as <-; assert (a = b) by lia; subst; constructor|].
    destruct (a =? 1) eqn:E2; [intros H; injection H as <-; assert (a = 1) by lia; subst; constructor|].
    destruct (b =? 1) eqn:E3; [intros H; injection H as <-; assert (b = 1) by lia; subst; constructor|discriminate].
  - intros H. inversion H; subst.
    + now rewrite Z.eqb_refl.
    + destruct (1 =? r) eqn:E; [f_equal; lia|reflexivity].
    + destruct (r =? 1) eqn:E; [reflexivity|]. reflexivity.
Qed.

Lemma bcast_sizes_ok a : forall b, length a = length b ->
  (forall d x y, nth_error a d = Some x -> nth_error b d = Some y -> exists r, bcast1 x y r) ->
  exists s, bcast_sizes a b = Ok s.
Proof.
  induction a as [|x a IH]; intros [|y b] HL H; cbn in HL; try lia; [eexists; reflexivity|].
  cbn [bcast_sizes]. destruct (H O x y eq_refl eq_refl) as (r & Hr). apply bcast_size_iff in Hr. rewrite Hr. cbn [bind].
  destruct (IH b) as (s & ->); [lia| |eexists; reflexivity].
  intros d p q Hp Hq. exact (H (S d) p q Hp Hq).
Qed.

Lemma bcast_sizes_inv a : forall b s, bcast_sizes a b = Ok s -> length a = length b /\ length s = length a /\
  (forall d x y, nth_error a d = Some x -> nth_error b d = Some y -> exists r, nth_error s d = Some r /\ bcast1 x y r).
Proof.
  induction a as [|x a IH]; intros [|y b] s E; cbn [bcast_sizes] in E; try discriminate.
  - injection E as <-. split; [reflexivity|]. split; [reflexivity|]. intros [|d] ? ? H; discriminate.
  - destruct (bcast_size x y) as [r|] eqn:E1; [|discriminate]. cbn [bind] in E.
    destruct (bcast_sizes a b) as [s'|] eqn:E2; [|discriminate]. cbn [bind] in E. injection E as <-.
    destruct (IH _ _ E2) as (A & B & C). cbn [length]. split; [lia|]. split; [lia|].
    intros [|d] p q Hp Hq; cbn in Hp, Hq.
    + injection Hp as <-. injection Hq as <-. exists r. split; [reflexivity|]. now apply bcast_size_iff.
    + exact (C d p q Hp Hq).
Qed.

Lemma list_set_at {A} (l : list A) : forall k v d, (k < length l)%nat ->
  nth_error (list_set l k v) d = if Nat.eqb d k then Some v else nth_error l d.
Proof.
  induction l as [|a l IH]; intros [|k] v [|d] H; cbn in *; try lia; try reflexivity.
  rewrite IH by lia. reflexivity.
Qed.

Lemma list_set_len {A} (l : list A) : forall k v, length (list_set l k v) = length l.
Proof. induction l as [|a l IH]; intros [|k] v; cbn; auto. Qed.

Lemma seen_at_bcast s : forall p, bcast_ix s p = seen_at s p.
Proof. unfold bcast_ix. induction s as [|n s IH]; intros [|i p]; cbn; try reflexivity. now rewrite <- IH. Qed.

Lemma seen_at_len s : forall p, length s = length p -> length (seen_at s p) = length s.
Proof. induction s as [|n s IH]; intros [|i p] H; cbn in *; try lia; auto. Qed.

Lemma seen_at_nth s : forall p d n, length s = length p -> nth_error s d = Some n ->
  nth d (seen_at s p) 0 = if n =? 1 then 0 else nth d p 0.
Proof.
  induction s as [|m s IH]; intros [|i p] [|d] n HL E; cbn in *; try discriminate.
  - injection E as ->. reflexivity.
  - apply IH; auto.
Qed.

Lemma in_range_iff s p : in_range s p <-> length s = length p /\ (forall d n, nth_error s d = Some n -> 0 <= nth d p 0 < n).
Proof.
  split.
  - intros H. split; [exact (Forall2_len _ _ _ H)|]. induction H as [|n i s p Hi H IH]; intros [|d] m E; cbn in E; try discriminate.
    + injection E as <-. exact Hi.
    + exact (IH d m E).
  - revert p. induction s as [|n s IH]; intros [|i p] [HL H]; cbn in HL; try lia; [constructor|].
    constructor; [exact (H O n eq_refl)|]. apply IH. split; [lia|]. intros d m E. exact (H (S d) m E).
Qed.

Lemma nth_error_Some_lt {A} (l : list A) d a : nth_error l d = Some a -> (d < length l)%nat.
Proof. intros H. apply nth_error_Some. congruence. Qed.

Lemma Forall_nth_error {A} (P : A -> Prop) l d a : Forall P l -> nth_error l d = Some a -> P a.
Proof. intros H E. apply nth_error_In in E. rewrite Forall_forall in H. auto. Qed.

Section TakeAlong.
Context {V : Type}.
Implicit Types (x y : @stensor V) (t : @tensor V).

(** The sizes after broadcasting both ways. *)
Lemma along_sizes t k (ix : @tensor Z) si st : (k < length (shp t))%nat -> length (shp t) = length (shp ix) ->
  bcast_sizes (list_set (shp t) k (size ix k)) (shp ix) = Ok si ->
  bcast_sizes (list_set (shp ix) k (size t k)) (shp t) = Ok st ->
  length si = length (shp t) /\ length st = length (shp t) /\
  (forall d m n, nth_error (shp ix) d = Some m -> nth_error (shp t) d = Some n ->
     exists r, nth_error si d = Some r /\ (d = k -> r = m) /\ (d <> k -> bcast1 n m r /\ nth_error st d = Some r)) /\
  nth_error st k = Some (size t k).
Proof.
  intros Hk HL E1 E2. apply bcast_sizes_inv in E1 as (A1 & B1 & C1). apply bcast_sizes_inv in E2 as (A2 & B2 & C2).
  rewrite list_set_len in *. split; [lia|]. split; [lia|]. split.
  - intros d m n Em En. destruct (Nat.eq_dec d k) as [->|Hne].
    + destruct (C1 k (size ix k) m) as (r & Er & Hr); [rewrite list_set_at, Nat.eqb_refl by lia; reflexivity|exact Em|].
      exists r. split; [exact Er|]. split; [|congruence]. intros _.
      assert (size ix k = m) by (unfold size; now apply nth_error_nth). rewrite H in Hr. inversion Hr; subst; lia.
    + destruct (C1 d n m) as (r & Er & Hr); [rewrite list_set_at by lia; replace (Nat.eqb d k) with false by lia; exact En|exact Em|].
      exists r. split; [exact Er|]. split; [congruence|]. intros _. split; [exact Hr|].
      destruct (C2 d m n) as (r' & Er' & Hr'); [rewrite list_set_at by lia; replace (Nat.eqb d k) with false by lia; exact Em|exact En|].
      rewrite Er'. f_equal. inversion Hr; inversion Hr'; subst; lia.
  - destruct (C2 k (size t k) (size t k)) as (r & Er & Hr).
    + rewrite list_set_at, Nat.eqb_refl by lia. reflexivity.
    + unfold size. now apply nth_error_nth'.
    + rewrite Er. f_equal. inversion Hr; subst; lia.
Qed.

Lemma at_error {A} (l : list A) d : (d < length l)%nat -> exists a, nth_error l d = Some a.
Proof. intros H. destruct (nth_error l d) eqn:E; [eauto|]. apply nth_error_None in E. lia. Qed.

Lemma torch_take_along_ok t k (ix : @tensor Z) : (k < length (shp t))%nat -> Forall (fun n => 0 <= n) (shp t) ->
  ix_broadcasts k (shp t) ix ->
  exists t', torch_take_along_dim t k ix = Ok t' /\ gathered_bcast k t ix t'.
Proof.
  intros Hk Hs [HR HS HE]. unfold torch_take_along_dim, ndim. rewrite HR, Nat.eqb_refl. cbn [negb].
  assert (Lk : (k < length (shp ix))%nat) by lia.
  assert (At : forall d m n, nth_error (shp ix) d = Some m -> nth_error (shp t) d = Some n -> d <> k -> exists r, bcast1 n m r).
  { intros d m n Em En Hne. destruct (HS d m n Em En). auto. }
  destruct (bcast_sizes_ok (list_set (shp t) k (size ix k)) (shp ix)) as (si & E1).
  { rewrite list_set_len. lia. }
  { intros d p q. rewrite list_set_at by lia. destruct (Nat.eqb d k) eqn:E; intros Hp Hq.
    - assert (d = k) by lia. subst d. injection Hp as <-. unfold size. rewrite (nth_error_nth _ _ _ Hq). eexists. constructor.
    - apply (At d q p); auto. lia. }
  destruct (bcast_sizes_ok (list_set (shp ix) k (size t k)) (shp t)) as (st & E2).
  { rewrite list_set_len. lia. }
  { intros d p q. rewrite list_set_at by lia. destruct (Nat.eqb d k) eqn:E; intros Hp Hq.
    - assert (d = k) by lia. subst d. injection Hp as <-. unfold size. rewrite (nth_error_nth _ _ _ Hq). eexists. constructor.
    - destruct (At d p q) as (r & Hr); auto; [lia|]. exists r. inversion Hr; subst; constructor. }
  rewrite E1, E2. cbn [bind].
  destruct (along_sizes t k ix si st Hk ltac:(lia) E1 E2) as (Ls & Lt & C & Sk).
  assert (F : ix_fits k st (t_bcast ix si)).
  { constructor.
    - cbn. lia.
    - cbn [t_bcast shp]. intros d m n Em En. destruct (at_error (shp ix) d) as (m0 & Em0); [apply nth_error_Some_lt in Em; lia|].
      destruct (at_error (shp t) d) as (n0 & En0); [apply nth_error_Some_lt in Em; lia|].
      destruct (C d m0 n0 Em0 En0) as (r & Er & K1 & K2). rewrite Er in Em. injection Em as <-.
      destruct (HS d m0 n0 Em0 En0) as [M0 _]. pose proof (Forall_nth_error _ _ _ _ Hs En0) as N0. cbn in N0.
      destruct (Nat.eq_dec d k) as [->|Hne]; [split; [rewrite K1; auto|congruence]|].
      destruct (K2 Hne) as [Hb Est]. rewrite Est in En. injection En as <-. split; [inversion Hb; subst; lia|lia].
    - cbn [t_bcast shp at_]. intros p n Hp En. rewrite Sk in En. injection En as <-. rewrite seen_at_bcast.
      apply HE; [|unfold size; now apply nth_error_nth'].
      apply in_range_iff in Hp as [Lp Hp]. apply in_range_iff. split; [rewrite seen_at_len; lia|].
      intros d m Em. destruct (at_error (shp t) d) as (n0 & En0); [apply nth_error_Some_lt in Em; lia|].
      rewrite (seen_at_nth _ _ _ m) by (auto; lia). destruct (C d m n0 Em En0) as (r & Er & K1 & K2).
      specialize (Hp d r Er). destruct (m =? 1) eqn:Em1; [lia|].
      destruct (Nat.eq_dec d k) as [->|Hne]; [rewrite <- K1; auto|]. destruct (K2 Hne) as [Hb _]. inversion Hb; subst; lia. }
  destruct (torch_gather_ok (t_bcast t st) k (t_bcast ix si)) as (t' & Eg & G).
  { cbn. lia. }
  { cbn. apply Forall_forall. intros a Ha. apply In_nth_error in Ha as [d Hd].
    destruct (at_error (shp t) d) as (n0 & En0); [apply nth_error_Some_lt in Hd; lia|].
    destruct (at_error (shp ix) d) as (m0 & Em0); [apply nth_error_Some_lt in Hd; lia|].
    destruct (HS d m0 n0 Em0 En0) as [M0 _]. pose proof (Forall_nth_error _ _ _ _ Hs En0) as N0. cbn in N0.
    destruct (C d m0 n0 Em0 En0) as (r & Er & K1 & K2).
    destruct (Nat.eq_dec d k) as [->|Hne].
    - rewrite Sk in Hd. injection Hd as <-. unfold size. now rewrite (nth_error_nth _ _ _ En0).
    - destruct (K2 Hne) as [Hb Est]. rewrite Est in Hd. injection Hd as <-. inversion Hb; subst; lia. }
  { exact F. }
  exists t'. split; [exact Eg|]. destruct G as [G1 G2]. cbn [t_bcast shp] in G1, G2. unfold gathered_bcast. rewrite G1.
  split; [lia|]. split.
  - intros d m n Em En. destruct (C d m n Em En) as (r & Er & K1 & K2). exists r. split; [exact Er|]. split; [exact K1|].
    intros Hne. apply K2; auto.
  - intros p Hp. rewrite (G2 p Hp). cbn [t_bcast at_ shp]. rewrite !seen_at_bcast. f_equal.
    pose proof (if_entries _ _ _ F p (size t k) Hp Sk) as He. cbn [t_bcast at_] in He. rewrite seen_at_bcast in He.
    apply in_range_iff in Hp as [Lp Hp].
    assert (Lp2 : length (put k (at_ ix (seen_at (shp ix) p)) p) = length p) by (apply put_length; lia).
    apply (nth_ext _ _ 0 0).
    + rewrite seen_at_len, put_length; rewrite ?seen_at_len; lia.
    + intros d Hd. rewrite seen_at_len in Hd by lia. destruct (at_error (shp t) d Hd) as (n & En).
      rewrite (seen_at_nth _ _ _ n) by (auto; lia). rewrite !put_nth by (rewrite ?seen_at_len; lia).
      destruct (Nat.eqb d k) eqn:Edk.
      * assert (d = k) by lia. subst d. unfold size in He. rewrite (nth_error_nth _ _ _ En) in He. destruct (n =? 1) eqn:En1; lia.
      * now rewrite (seen_at_nth _ _ _ n) by (auto; lia).
Qed.

End TakeAlong.

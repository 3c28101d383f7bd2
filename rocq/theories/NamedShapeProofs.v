(** Proofs about flatten, permute and the transposes. *)

From Coq Require Import String List ZArith Bool Lia Permutation.
From Coq Require Import ZifyBool.
From Verif Require Import Py Meta MetaSpec MetaProofs MetaLenProofs MetaSplitProofs MetaBatchProofs Named NamedSpec
  NamedProofs NamedSelProofs NamedIndexProofs NamedMetaProofs NamedGetProofs NamedOpsProofs.
From Verif Require LazyProofs.
Import ListNotations.
Open Scope Z_scope.

Lemma zprod_block s : zprod s = block_size s.
Proof. induction s; cbn; [reflexivity|]. now rewrite <- IHs. Qed.

Lemma block_pos_range s ix : in_range s ix -> 0 <= block_pos s ix < block_size s.
Proof.
  induction 1 as [|n i s ix Hi Hr IH]; cbn [block_pos block_size]; [lia|]. nia.
Qed.

Lemma unravel_pos s ix : in_range s ix -> unravel s (block_pos s ix) = ix.
Proof.
  induction 1 as [|n i s ix Hi Hr IH]; cbn [block_pos unravel]; [reflexivity|].
  rewrite !(zprod_block s). pose proof (block_pos_range _ _ Hr) as B.
  rewrite (Z.add_comm (i * block_size s)). rewrite Z.div_add by lia. rewrite Z.div_small by lia.
  rewrite Z.mod_add by lia. rewrite Z.mod_small by lia. now rewrite IH.
Qed.

Section Shape.
Context {V : Type}.
Implicit Types x y : @stensor V.

Lemma torch_flatten_flattened (t : @tensor V) a b : (a <= b < ndim t)%nat ->
  exists t', torch_flatten t a b = Ok t' /\ flattened a b t t' /\ ndim t' = (ndim t - (b - a))%nat.
Proof.
  intros H. unfold torch_flatten. replace (Nat.ltb b a) with false by (symmetry; apply Nat.ltb_ge; lia).
  eexists. split; [reflexivity|]. split; [split|].
  - cbn. rewrite zprod_block. reflexivity.
  - intros ia im ic Ha Hm. cbn [at_]. fold (between a b (shp t)).
    assert (E1 : firstn a (ia ++ block_pos (between a b (shp t)) im :: ic) = ia).
    { rewrite firstn_app, Ha, Nat.sub_diag. cbn. rewrite app_nil_r. rewrite <- Ha. apply firstn_all. }
    assert (E2 : skipn (S a) (ia ++ block_pos (between a b (shp t)) im :: ic) = ic).
    { rewrite skipn_app. rewrite skipn_all2 by lia. replace (S a - length ia)%nat with 1%nat by lia. reflexivity. }
    assert (E3 : nth a (ia ++ block_pos (between a b (shp t)) im :: ic) 0 = block_pos (between a b (shp t)) im).
    { rewrite <- Ha. apply nth_app_here. }
    unfold between in *. rewrite E1, E2, E3. now rewrite unravel_pos.
  - unfold ndim. cbn [shp]. rewrite !app_length. cbn [length]. rewrite firstn_length, skipn_length. unfold ndim in H. lia.
Qed.

Lemma list_slice_cut {A} (l : list A) a b :
  list_slice l (mkSlice a b None) =
  Ok (firstn (Z.to_nat (slice_hi (zlen l) b - slice_lo (zlen l) a)) (skipn (Z.to_nat (slice_lo (zlen l) a)) l)).
Proof.
  change (list_slice l (mkSlice a b None)) with (list_slice l (mkSlice a b (Some 1))).
  rewrite list_slice_pos by lia. f_equal.
  rewrite slice_positions_range by (try lia; apply zlen_nonneg).
  pose proof (slice_lo_bounds (zlen l) a (zlen_nonneg l)).
  rewrite py_range_seq by lia. now rewrite at_positions_seq.
Qed.

Lemma slice_names_mid {A} (l : list A) nd s e a b : length l = nd -> denotes nd s a -> denotes nd e b -> (a <= b)%nat -> e <> -1 ->
  list_slice l (mkSlice (Some s) (Some (e + 1)) None) = Ok (between a b l) /\
  slice_to l s = Ok (firstn a l) /\ slice_from l (e + 1) = Ok (skipn (S b) l).
Proof.
  intros HL [Ha Hs] [Hb He] Hab N. unfold slice_to, slice_from. rewrite !list_slice_cut.
  assert (L1 : slice_lo (zlen l) (Some s) = Z.of_nat a).
  { unfold slice_lo, slice_end, zlen. destruct (s <? 0) eqn:E; lia. }
  assert (L1' : slice_hi (zlen l) (Some s) = Z.of_nat a).
  { unfold slice_hi, slice_end, zlen. destruct (s <? 0) eqn:E; lia. }
  assert (L2 : slice_hi (zlen l) (Some (e + 1)) = Z.of_nat (S b)).
  { unfold slice_hi, slice_end, zlen. destruct (e + 1 <? 0) eqn:E; lia. }
  assert (L2' : slice_lo (zlen l) (Some (e + 1)) = Z.of_nat (S b)).
  { unfold slice_lo, slice_end, zlen. destruct (e + 1 <? 0) eqn:E; lia. }
  rewrite L1, L1', L2, L2'.
  assert (L3 : slice_lo (zlen l) None = 0) by reflexivity.
  assert (L4 : slice_hi (zlen l) None = zlen l) by reflexivity.
  rewrite L3, L4. split; [|split].
  - unfold between. do 2 f_equal; [lia|]. f_equal. lia.
  - f_equal. cbn [skipn Z.to_nat]. f_equal. lia.
  - f_equal. rewrite Nat2Z.id. apply firstn_all2. rewrite skipn_length. unfold zlen. lia.
Qed.

Lemma join_strings l : l <> [] -> join_dim_names (map Some l) = Ok (String.concat "_" l).
Proof.
  induction l as [|a l IH]; intros H; [congruence|].
  destruct l as [|b l]; [reflexivity|].
  change (join_dim_names (map Some (a :: b :: l)))
    with (do s <- join_dim_names (map Some (b :: l)); Ok (a ++ "_" ++ s)%string).
  rewrite IH by discriminate. reflexivity.
Qed.

Lemma join_none l : In None l -> join_dim_names l = Err TypeError.
Proof.
  induction l as [|[a|] l IH]; intros H; [destruct H| |reflexivity].
  destruct H as [H|H]; [discriminate|].
  destruct l as [|b l]; [destruct H|].
  change (join_dim_names (Some a :: b :: l)) with (do s <- join_dim_names (b :: l); Ok (a ++ "_" ++ s)%string).
  now rewrite IH.
Qed.

Lemma three_parts {A} a b (l : list A) : (a <= b < length l)%nat -> l = firstn a l ++ between a b l ++ skipn (S b) l.
Proof.
  intros H. unfold between. rewrite <- (firstn_skipn a l) at 1. f_equal.
  rewrite <- (firstn_skipn (S b - a) (skipn a l)) at 1. f_equal. rewrite skipn_skipn. f_equal. lia.
Qed.

Lemma between_length {A} a b (l : list A) : (a <= b < length l)%nat -> length (between a b l) = (S b - a)%nat.
Proof. intros H. unfold between. rewrite firstn_length, skipn_length. lia. Qed.

Lemma nth_error_parts {A} a b (l : list A) k : (a <= b < length l)%nat ->
  nth_error l k = if Nat.ltb k a then nth_error (firstn a l) k
                  else if Nat.leb k b then nth_error (between a b l) (k - a)
                  else nth_error (skipn (S b) l) (k - S b).
Proof.
  intros H. rewrite (three_parts a b l H) at 1.
  pose proof (between_length a b l H) as HB. assert (HF : length (firstn a l) = a) by (rewrite firstn_length; lia).
  destruct (Nat.ltb_spec k a).
  - now rewrite nth_error_app1 by lia.
  - rewrite nth_error_app2 by lia. rewrite HF. destruct (Nat.leb_spec k b).
    + now rewrite nth_error_app1 by lia.
    + rewrite nth_error_app2 by lia. rewrite HB. f_equal. lia.
Qed.

Lemma In_between {A} a b (l : list A) v : (a <= b < length l)%nat ->
  (In v (between a b l) <-> exists k, (a <= k <= b)%nat /\ nth_error l k = Some v).
Proof.
  intros H. pose proof (between_length a b l H) as HB. split.
  - intros Hv. apply In_nth_error in Hv as (j & Hj).
    assert (j < length (between a b l))%nat by (apply nth_error_Some; congruence).
    exists (j + a)%nat. split; [lia|]. rewrite (nth_error_parts a b) by auto.
    replace (Nat.ltb (j + a) a) with false by (symmetry; apply Nat.ltb_ge; lia).
    replace (Nat.leb (j + a) b) with true by (symmetry; apply Nat.leb_le; lia).
    rewrite <- Hj. f_equal. lia.
  - intros (k & Hk & E). rewrite (nth_error_parts a b) in E by auto.
    replace (Nat.ltb k a) with false in E by (symmetry; apply Nat.ltb_ge; lia).
    replace (Nat.leb k b) with true in E by (symmetry; apply Nat.leb_le; lia).
    eapply nth_error_In; eauto.
Qed.

Lemma flatten_common x s e a b : length (names x) = ndim (tn x) ->
  denotes (ndim (tn x)) s a -> denotes (ndim (tn x)) e b -> (a <= b)%nat -> e <> -1 ->
  exists t', flattened a b (tn x) t' /\ ndim t' = (ndim (tn x) - (b - a))%nat /\
  flatten x s e =
    (if names_mem (Some BATCH) (between a b (names x)) || names_mem (Some LENGTH) (between a b (names x)) then Ok (inl t')
     else do j <- join_dim_names (between a b (names x));
          if String.eqb j EmptyString then Err RuntimeError
          else do nn <- rename (ndim t') (firstn a (names x) ++ [Some j] ++ skipn (S b) (names x));
               Ok (inr (mkSt t' nn (smeta x)))).
Proof.
  intros HR Hs He Hab N. unfold flatten.
  rewrite (proj2 (norm_dim_denotes _ _ _) Hs), (proj2 (norm_dim_denotes _ _ _) He). cbn [bind].
  destruct (torch_flatten_flattened (tn x) a b) as (t' & E & HF & HN). { destruct He; lia. }
  rewrite E. cbn [bind].
  destruct (slice_names_mid (names x) (ndim (tn x)) s e a b HR Hs He Hab N) as (E1 & E2 & E3).
  rewrite E1, E2, E3. cbn [bind]. exists t'. split; [exact HF|]. split; [exact HN|].
  destruct (names_mem (Some BATCH) _ || _); [reflexivity|].
  destruct (join_dim_names _); reflexivity.
Qed.

Lemma flatten_falls_back x s e a b : length (names x) = ndim (tn x) ->
  denotes (ndim (tn x)) s a -> denotes (ndim (tn x)) e b -> (a <= b)%nat -> e <> -1 ->
  (exists k, (a <= k <= b)%nat /\ (nth_error (names x) k = Some (Some "B"%string) \/ nth_error (names x) k = Some (Some "L"%string))) ->
  exists t', flatten x s e = Ok (inl t') /\ flattened a b (tn x) t'.
Proof.
  intros HR Hs He Hab N (k & Hk & HBL).
  destruct (flatten_common x s e a b HR Hs He Hab N) as (t' & HF & HN & E).
  exists t'. split; [|exact HF]. rewrite E.
  assert (R : (a <= b < length (names x))%nat) by (destruct He; lia).
  replace (names_mem (Some BATCH) (between a b (names x)) || names_mem (Some LENGTH) (between a b (names x))) with true; [reflexivity|].
  symmetry. apply orb_true_iff. rewrite !names_mem_In. unfold BATCH, LENGTH.
  destruct HBL as [H|H]; [left|right]; apply In_between; eauto.
Qed.

Lemma flatten_joins x s e a b l : length (names x) = ndim (tn x) -> names_distinct (names x) ->
  denotes (ndim (tn x)) s a -> denotes (ndim (tn x)) e b -> (a <= b)%nat -> e <> -1 ->
  between a b (names x) = map Some l -> ~ In "B"%string l -> ~ In "L"%string l ->
  String.concat "_" l <> EmptyString ->
  ~ In (Some (String.concat "_" l)) (firstn a (names x)) -> ~ In (Some (String.concat "_" l)) (skipn (S b) (names x)) ->
  exists y, flatten x s e = Ok (inr y) /\
    names y = firstn a (names x) ++ Some (String.concat "_" l) :: skipn (S b) (names x) /\
    smeta y = smeta x /\ flattened a b (tn x) (tn y).
Proof.
  intros HR HD Hs He Hab N Hl NB NL NE C1 C2.
  destruct (flatten_common x s e a b HR Hs He Hab N) as (t' & HF & HN & E). rewrite E, Hl.
  assert (R : (a <= b < length (names x))%nat) by (destruct He; lia).
  assert (M : names_mem (Some BATCH) (map Some l) || names_mem (Some LENGTH) (map Some l) = false).
  { apply Bool.not_true_iff_false. rewrite orb_true_iff, !names_mem_In, !in_map_iff. unfold BATCH, LENGTH.
    intros [(q & Q & H)|(q & Q & H)]; injection Q as ->; auto. }
  rewrite M. rewrite join_strings.
  2:{ intros ->. pose proof (between_length a b (names x) R) as BL. rewrite Hl in BL. cbn [map length] in BL. lia. }
  cbn [bind]. destruct (String.eqb_spec (String.concat "_" l) EmptyString) as [|_]; [contradiction|].
  rewrite rename_ok.
  - eexists. split; [reflexivity|]. cbn [names smeta tn]. auto.
  - rewrite HN, !app_length. cbn [length]. rewrite firstn_length, skipn_length. lia.
  - apply names_dup_false. apply names_dup_false in HD.
    rewrite (three_parts a b (names x) R) in HD. revert HD C1 C2.
    generalize (firstn a (names x)) (between a b (names x)) (skipn (S b) (names x)) (String.concat "_" l).
    clear. intros p m q j. induction p as [|[n|] p IH]; intros H C1 C2.
    + cbn [app] in *. cbn [names_dup]. apply orb_false_iff. split.
      { apply Bool.not_true_iff_false. rewrite names_mem_In. exact C2. }
      induction m as [|[n|] m IHm]; cbn [app names_dup] in H; auto. apply orb_false_iff in H as [_ H]. auto.
    + cbn [app names_dup] in *. apply orb_false_iff in H as [H1 H2]. apply orb_false_iff. split.
      * apply Bool.not_true_iff_false in H1. apply Bool.not_true_iff_false. rewrite names_mem_In in *.
        intros Hin. apply H1. rewrite !in_app_iff in *. cbn [In] in Hin.
        destruct Hin as [Hin|[Hin|Hin]]; auto. exfalso. apply C1. left. congruence.
      * apply IH; auto. intros Hin. apply C1. now right.
    + cbn [app names_dup] in *. apply IH; auto. intros Hin. apply C1. now right.
Qed.

Lemma flatten_unnamed x s e a b : length (names x) = ndim (tn x) ->
  denotes (ndim (tn x)) s a -> denotes (ndim (tn x)) e b -> (a <= b)%nat -> e <> -1 ->
  ~ In (Some "B"%string) (between a b (names x)) -> ~ In (Some "L"%string) (between a b (names x)) ->
  In None (between a b (names x)) -> flatten x s e = Err TypeError.
Proof.
  intros HR Hs He Hab N NB NL HN.
  destruct (flatten_common x s e a b HR Hs He Hab N) as (t' & _ & _ & E). rewrite E.
  replace (names_mem (Some BATCH) (between a b (names x)) || names_mem (Some LENGTH) (between a b (names x))) with false.
  - now rewrite join_none.
  - symmetry. apply Bool.not_true_iff_false. rewrite orb_true_iff, !names_mem_In. unfold BATCH, LENGTH. tauto.
Qed.

Lemma flatten_minus_one x s a : length (names x) = ndim (tn x) -> denotes (ndim (tn x)) s a ->
  flatten x s (-1) = Err RuntimeError.
Proof.
  intros HR Hs. pose proof Hs as [Ha Hs']. unfold flatten.
  rewrite (proj2 (norm_dim_denotes _ _ _) Hs). cbn [bind].
  assert (He : denotes (ndim (tn x)) (-1) (ndim (tn x) - 1)) by (split; lia).
  rewrite (proj2 (norm_dim_denotes _ _ _) He). cbn [bind].
  destruct (torch_flatten_flattened (tn x) a (ndim (tn x) - 1)) as (t' & E & _); [lia|]. rewrite E. cbn [bind].
  rewrite list_slice_cut. change (-1 + 1) with 0.
  assert (H0 : slice_hi (zlen (names x)) (Some 0) = 0).
  { unfold slice_hi, slice_end. cbn. pose proof (zlen_nonneg (names x)). lia. }
  rewrite H0. pose proof (slice_lo_bounds (zlen (names x)) (Some s) (zlen_nonneg _)).
  replace (Z.to_nat (0 - slice_lo (zlen (names x)) (Some s))) with O by lia. cbn [firstn bind names_mem existsb orb join_dim_names].
  unfold slice_to, slice_from. rewrite !list_slice_cut. reflexivity.
Qed.

(* ---------- permute ---------- *)

Lemma pos_in_nth ds d : In d ds -> (pos_in d ds < length ds)%nat /\ nth (pos_in d ds) ds O = d.
Proof.
  induction ds as [|a ds IH]; intros H; [destruct H|]. cbn [pos_in].
  destruct (Nat.eqb_spec a d) as [->|N]; [cbn; split; [lia|reflexivity]|].
  destruct H as [->|H]; [congruence|]. destruct (IH H). cbn. split; [lia|auto].
Qed.

Lemma nat_mem_In d l : nat_mem d l = true <-> In d l.
Proof.
  unfold nat_mem. rewrite existsb_exists. split.
  - intros (a & Ha & E). apply Nat.eqb_eq in E. now subst.
  - intros H. exists d. split; auto. apply Nat.eqb_refl.
Qed.

Lemma torch_permute_permuted (t : @tensor V) ds : length ds = ndim t -> (forall d, (d < ndim t)%nat -> In d ds) ->
  exists t', torch_permute t ds = Ok t' /\ permuted ds t t' /\ ndim t' = ndim t.
Proof.
  intros HL HI. unfold torch_permute.
  replace (Nat.eqb (length ds) (ndim t) && forallb (fun d => nat_mem d ds) (seq 0 (ndim t))) with true.
  2:{ symmetry. apply andb_true_iff. split; [now apply Nat.eqb_eq|]. apply forallb_forall. intros d Hd.
      apply nat_mem_In. apply HI. apply in_seq in Hd. lia. }
  eexists. split; [reflexivity|]. split; [split|].
  - reflexivity.
  - intros ix jx Hi Hj H. cbn [at_]. f_equal.
    apply (nth_ext _ _ 0 0).
    { rewrite map_length, seq_length. lia. }
    intros d Hd. rewrite map_length, seq_length in Hd.
    destruct (pos_in_nth ds d (HI d Hd)) as [P1 P2].
    rewrite (nth_indep _ 0 (nth (pos_in O ds) ix 0)) by (now rewrite map_length, seq_length).
    rewrite (map_nth (fun d => nth (pos_in d ds) ix 0)). rewrite seq_nth by auto. cbn [Nat.add].
    rewrite <- H by auto. now rewrite P2.
  - unfold ndim at 1. cbn. rewrite map_length. exact HL.
Qed.

Lemma distinct_reorder l ds : names_distinct l -> NoDup ds -> (forall d, In d ds -> (d < length l)%nat) ->
  names_distinct (map (fun d => nth d l None) ds).
Proof.
  intros HD HN HI i j s Hi Hj. rewrite nth_error_map in Hi, Hj.
  destruct (nth_error ds i) as [a|] eqn:Ea; [|discriminate]. destruct (nth_error ds j) as [b|] eqn:Eb; [|discriminate].
  cbn in Hi, Hj. injection Hi as Hi. injection Hj as Hj.
  assert (Ha : (a < length l)%nat) by (apply HI; eapply nth_error_In; eauto).
  assert (Hb : (b < length l)%nat) by (apply HI; eapply nth_error_In; eauto).
  assert (a = b).
  { apply (HD a b s); [rewrite (nth_error_nth' l None Ha)|rewrite (nth_error_nth' l None Hb)]; f_equal; assumption. }
  subst b. apply (proj1 (NoDup_nth_error ds) HN); [apply nth_error_Some; congruence|congruence].
Qed.

Lemma perm_facts ds nd : Permutation ds (seq 0 nd) ->
  length ds = nd /\ (forall d, In d ds <-> (d < nd)%nat) /\ NoDup ds.
Proof.
  intros H. split; [|split].
  - rewrite (Permutation_length H). apply seq_length.
  - intros d. split; intros Hd.
    + apply (Permutation_in _ H) in Hd. apply in_seq in Hd. lia.
    + apply (Permutation_in _ (Permutation_sym H)). apply in_seq. lia.
  - apply (Permutation_NoDup (Permutation_sym H)). apply seq_NoDup.
Qed.

Lemma mapM_dims nd dims ds : Forall2 (denotes nd) dims ds -> mapM (norm_dim nd) dims = Ok ds.
Proof.
  induction 1 as [|d k dims ds H _ IH]; [reflexivity|]. unfold mapM in *. cbn [map seqM].
  rewrite (proj2 (norm_dim_denotes _ _ _) H). cbn [bind]. rewrite IH. reflexivity.
Qed.

Lemma getitem_denotes {A} (l : list A) dft d k : denotes (length l) d k -> py_getitem l d = Ok (nth k l dft).
Proof.
  intros [Hk Hd]. unfold py_getitem, zlen.
  assert (E : (if d <? 0 then d + Z.of_nat (length l) else d) = Z.of_nat k).
  { destruct (d <? 0) eqn:E; lia. }
  rewrite E. replace (Z.of_nat k <? 0) with false by lia. rewrite Nat2Z.id.
  now rewrite (nth_error_nth' l dft Hk).
Qed.

Lemma mapM_names (l : list dname) dims ds : Forall2 (denotes (length l)) dims ds ->
  mapM (py_getitem l) dims = Ok (map (fun d => nth d l None) ds).
Proof.
  induction 1 as [|d k dims ds H _ IH]; [reflexivity|]. unfold mapM in *. cbn [map seqM].
  rewrite (getitem_denotes l None d k H). cbn [bind]. rewrite IH. reflexivity.
Qed.

Lemma permute_ok x dims ds : length (names x) = ndim (tn x) -> names_distinct (names x) ->
  Forall2 (denotes (ndim (tn x))) dims ds -> Permutation ds (seq 0 (ndim (tn x))) ->
  exists y, permute x dims = Ok y /\ names y = map (fun d => nth d (names x) None) ds /\ smeta y = smeta x /\
            permuted ds (tn x) (tn y).
Proof.
  intros HR HD HF HP. destruct (perm_facts _ _ HP) as (P1 & P2 & P3). unfold permute.
  rewrite (mapM_dims _ _ _ HF). cbn [bind].
  destruct (torch_permute_permuted (tn x) ds P1) as (t' & E & Hp & HN). { intros d Hd. now apply P2. }
  rewrite E. cbn [bind]. rewrite <- HR in HF. rewrite (mapM_names _ _ _ HF). cbn [bind].
  rewrite rename_ok.
  - eexists. split; [reflexivity|]. cbn. auto.
  - rewrite map_length. lia.
  - apply distinct_reorder; auto. intros d Hd. rewrite HR. now apply P2.
Qed.

Lemma permute_refused x dims ds : Forall2 (denotes (ndim (tn x))) dims ds -> ~ Permutation ds (seq 0 (ndim (tn x))) ->
  permute x dims = Err RuntimeError.
Proof.
  intros HF HP. unfold permute. rewrite (mapM_dims _ _ _ HF). cbn [bind]. unfold torch_permute.
  destruct (Nat.eqb (length ds) (ndim (tn x))) eqn:E; cbn [andb]; [|reflexivity].
  destruct (forallb (fun d => nat_mem d ds) (seq 0 (ndim (tn x)))) eqn:E'; [|reflexivity].
  exfalso. apply HP. apply Permutation_sym. apply Nat.eqb_eq in E. apply NoDup_Permutation_bis; [apply seq_NoDup|rewrite seq_length; lia|].
  intros d Hd. rewrite forallb_forall in E'. specialize (E' d Hd). unfold nat_mem in E'. apply existsb_exists in E'.
  destruct E' as (e & He & Hq). apply Nat.eqb_eq in Hq. now subst.
Qed.

Lemma permute_outside x dims : Exists (fun d => ~ exists k, denotes (ndim (tn x)) d k) dims -> permute x dims = Err IndexError.
Proof.
  intros H. unfold permute. assert (mapM (norm_dim (ndim (tn x))) dims = Err IndexError) as ->; [|reflexivity].
  induction H as [d dims H|d dims _ IH]; unfold mapM in *; cbn [map seqM].
  - assert (norm_dim (ndim (tn x)) d = Err IndexError) as ->; [|reflexivity]. unfold norm_dim.
    destruct ((_ <? 0) || _) eqn:E; [reflexivity|]. exfalso. apply H.
    exists (Z.to_nat (if d <? 0 then d + Z.of_nat (ndim (tn x)) else d)). unfold denotes. destruct (d <? 0) eqn:Ed; lia.
  - assert (norm_dim (ndim (tn x)) d = Err IndexError \/ exists k, norm_dim (ndim (tn x)) d = Ok k) as [->|[k ->]]; [|reflexivity|].
    + unfold norm_dim. destruct ((_ <? 0) || _); eauto.
    + cbn [bind]. now rewrite IH.
Qed.

Lemma transpose_all_ok x : length (names x) = ndim (tn x) -> names_distinct (names x) ->
  exists y, transpose_all x = Ok y /\ names y = rev (names x) /\ smeta y = smeta x /\
            permuted (rev (seq 0 (ndim (tn x)))) (tn x) (tn y).
Proof.
  intros HR HD. unfold transpose_all.
  destruct (permute_ok x (map Z.of_nat (rev (seq 0 (ndim (tn x))))) (rev (seq 0 (ndim (tn x)))) HR HD) as (y & E & Hn & Hm & Hp).
  - assert (G : forall l, (forall d, In d l -> (d < ndim (tn x))%nat) -> Forall2 (denotes (ndim (tn x))) (map Z.of_nat l) l).
    { induction l as [|d l IH]; intros H; constructor.
      - split; [apply H; now left|now left].
      - apply IH. intros; apply H; now right. }
    apply G. intros d Hd. apply in_rev in Hd. apply in_seq in Hd. lia.
  - apply Permutation_sym, Permutation_rev.
  - exists y. split; [exact E|]. split; [|auto]. rewrite Hn. rewrite map_rev. f_equal. rewrite <- HR.
    apply (nth_ext _ _ None None).
    + now rewrite map_length, seq_length.
    + intros d Hd. rewrite map_length, seq_length in Hd.
      rewrite (nth_indep _ None (nth O (names x) None)) by (now rewrite map_length, seq_length).
      rewrite (map_nth (fun d => nth d (names x) None)). now rewrite seq_nth.
Qed.

Lemma exchange_eq nd a b : swap_dims nd a b = exchange nd a b.
Proof. reflexivity. Qed.

Lemma exchange_facts nd a b : (a < nd)%nat -> (b < nd)%nat ->
  length (exchange nd a b) = nd /\ (forall d, (d < nd)%nat -> In d (exchange nd a b)).
Proof.
  intros Ha Hb. split; [unfold exchange; now rewrite map_length, seq_length|].
  intros d Hd. apply in_map_iff.
  exists (if Nat.eqb d a then b else if Nat.eqb d b then a else d).
  destruct (Nat.eqb_spec d a) as [->|N1].
  - split; [|apply in_seq; lia]. destruct (Nat.eqb_spec b a); [congruence|]. now rewrite Nat.eqb_refl.
  - destruct (Nat.eqb_spec d b) as [->|N2].
    + split; [|apply in_seq; lia]. now rewrite Nat.eqb_refl.
    + split; [|apply in_seq; lia]. destruct (Nat.eqb_spec d a); [congruence|]. destruct (Nat.eqb_spec d b); congruence.
Qed.

Lemma method_transpose_ok x d0 d1 a b : denotes (ndim (tn x)) d0 a -> denotes (ndim (tn x)) d1 b ->
  exists y, method_transpose x d0 d1 = Ok y /\ names y = map (fun d => nth d (names x) None) (exchange (ndim (tn x)) a b) /\
            smeta y = smeta x /\ permuted (exchange (ndim (tn x)) a b) (tn x) (tn y).
Proof.
  intros H0 H1. unfold method_transpose.
  rewrite (proj2 (norm_dim_denotes _ _ _) H0), (proj2 (norm_dim_denotes _ _ _) H1). cbn [bind].
  rewrite exchange_eq. destruct (exchange_facts _ a b (proj1 H0) (proj1 H1)) as [E1 E2].
  destruct (torch_permute_permuted (tn x) _ E1 E2) as (t' & E & Hp & HN). rewrite E. cbn [bind].
  eexists. split; [reflexivity|]. cbn. auto.
Qed.

Lemma torch_transpose_names x d0 d1 a b : length (names x) = ndim (tn x) -> names_distinct (names x) ->
  denotes (ndim (tn x)) d0 a -> denotes (ndim (tn x)) d1 b ->
  exists y, torch_transpose x d0 d1 = Ok y /\ names y = names x /\
            smeta y = smeta x /\ permuted (exchange (ndim (tn x)) a b) (tn x) (tn y).
Proof.
  intros HR HD H0 H1. unfold torch_transpose.
  rewrite (proj2 (norm_dim_denotes _ _ _) H0), (proj2 (norm_dim_denotes _ _ _) H1). cbn [bind].
  rewrite exchange_eq. destruct (exchange_facts _ a b (proj1 H0) (proj1 H1)) as [E1 E2].
  destruct (torch_permute_permuted (tn x) _ E1 E2) as (t' & E & Hp & HN). rewrite E. cbn [bind].
  rewrite rename_ok by (auto; lia). eexists. split; [reflexivity|]. cbn. auto.
Qed.

Lemma exchange_wrong (l : list dname) a b : (a < length l)%nat -> (b < length l)%nat ->
  nth a l None <> nth b l None -> map (fun d => nth d l None) (exchange (length l) a b) <> l.
Proof.
  intros Ha Hb N E. apply N.
  assert (E1 : nth a (map (fun d => nth d l None) (exchange (length l) a b)) None = nth b l None).
  { unfold exchange. rewrite map_map.
    set (f := fun d => nth (if Nat.eqb d a then b else if Nat.eqb d b then a else d) l None).
    change (nth a (map f (seq 0 (length l))) None = nth b l None).
    rewrite (nth_indep _ None (f O)) by (now rewrite map_length, seq_length).
    rewrite (map_nth f). rewrite seq_nth by auto. unfold f. cbn [Nat.add]. now rewrite Nat.eqb_refl. }
  now rewrite E in E1.
Qed.

Lemma permute_tuple_fails x l : exists e, tensor_permute x (PTuple l) = Err e.
Proof.
  cbn. destruct (mapM _ l); cbn [bind]; [|eauto]. destruct (torch_permute _ _); cbn; eauto.
Qed.

End Shape.

(** Proofs about concatenate_ragged on tensors of any rank. *)

From Coq Require Import String List ZArith Bool Lia.
From Coq Require Import ZifyBool.
From Verif Require Import Py Meta MetaSpec Named NamedSpec MetaProofs PartitionProofs ConvMoreProofs NamedGetProofs NamedShapeProofs Ragged RaggedSpec.
Import ListNotations.
Open Scope Z_scope.

(* ---- exchanging two dimensions *)

Definition sw (nd a b : nat) (l : list Z) : list Z := map (fun d => nth d l 0) (exchange nd a b).
Definition xd (a b d : nat) : nat := if Nat.eqb d a then b else if Nat.eqb d b then a else d.

Lemma exchange_length nd a b : length (exchange nd a b) = nd.
Proof. unfold exchange. now rewrite map_length, seq_length. Qed.

Lemma sw_length nd a b l : length (sw nd a b l) = nd.
Proof. unfold sw. now rewrite map_length, exchange_length. Qed.

Lemma exchange_nth nd a b d : (d < nd)%nat -> nth d (exchange nd a b) O = xd a b d.
Proof.
  intros H. unfold exchange. change (nth d (map (xd a b) (seq 0 nd)) O = xd a b d).
  rewrite (nth_indep _ O (xd a b O)) by (rewrite map_length, seq_length; lia).
  rewrite map_nth, seq_nth by lia. reflexivity.
Qed.

Lemma sw_nth nd a b l d : (d < nd)%nat -> nth d (sw nd a b l) 0 = nth (xd a b d) l 0.
Proof.
  intros H. unfold sw. rewrite (nth_indep _ 0 (nth O l 0)) by (rewrite map_length, exchange_length; lia).
  rewrite (map_nth (fun e => nth e l 0)). now rewrite exchange_nth.
Qed.

Lemma xd_inv a b d : xd a b (xd a b d) = d.
Proof.
  unfold xd. destruct (Nat.eqb d a) eqn:E1; [|destruct (Nat.eqb d b) eqn:E2].
  - destruct (Nat.eqb b a) eqn:E3; [lia|]. rewrite Nat.eqb_refl. lia.
  - rewrite Nat.eqb_refl. lia.
  - now rewrite E1, E2.
Qed.

Lemma xd_lt nd a b d : (a < nd)%nat -> (b < nd)%nat -> (d < nd)%nat -> (xd a b d < nd)%nat.
Proof. intros. unfold xd. destruct (Nat.eqb d a), (Nat.eqb d b); lia. Qed.

Lemma sw_sw nd a b l : (a < nd)%nat -> (b < nd)%nat -> length l = nd -> sw nd a b (sw nd a b l) = l.
Proof.
  intros Ha Hb Hl. apply (nth_ext _ _ 0 0); [rewrite sw_length; lia|]. intros d Hd. rewrite sw_length in Hd.
  rewrite !sw_nth by (try apply xd_lt; lia). now rewrite xd_inv.
Qed.

Section RaggedProofs.
Context {V : Type}.
Notation tensor := (@tensor V).

Lemma plain_transpose_ok (t : tensor) nd d0 d1 a b : ndim t = S nd -> denotes (S nd) d0 a -> denotes (S nd) d1 b ->
  exists t', plain_transpose t d0 d1 = Ok t' /\ shp t' = sw (S nd) a b (shp t) /\
    (forall ix, length ix = S nd -> at_ t' ix = at_ t (sw (S nd) a b ix)).
Proof.
  intros HN H0 H1. unfold plain_transpose. rewrite HN.
  rewrite (proj2 (norm_dim_denotes _ _ _) H0), (proj2 (norm_dim_denotes _ _ _) H1). cbn [bind].
  rewrite exchange_eq. destruct (exchange_facts _ a b (proj1 H0) (proj1 H1)) as [E1 E2].
  rewrite <- HN in E1 at 2. destruct (torch_permute_permuted t (exchange (S nd) a b)) as (t' & E & [Hs Ha] & HN').
  - exact E1.
  - intros d Hd. rewrite HN in Hd. now apply E2.
  - exists t'. split; [exact E|]. split; [exact Hs|]. intros ix Hix. apply Ha.
    + now rewrite exchange_length.
    + now rewrite sw_length, exchange_length.
    + intros k Hk. rewrite exchange_length in Hk. rewrite exchange_nth by lia.
      destruct H0 as [Ha0 _], H1 as [Hb0 _].
      rewrite sw_nth by (apply xd_lt; lia). now rewrite xd_inv.
Qed.

(* ---- copying with broadcasting, for equal ranks *)

Lemma copy_fits_same s m : length s = length m ->
  copy_fits s m = true <-> (forall d, (d < length s)%nat -> nth d s 0 = nth d m 0 \/ nth d s 0 = 1).
Proof.
  intros HL. unfold copy_fits. rewrite HL, Nat.sub_diag, Nat.leb_refl. cbn [skipn andb].
  revert m HL. induction s as [|n s IH]; intros [|m0 m] HL; try discriminate HL; cbn [combine forallb].
  - split; [|reflexivity]. intros _ d Hd. cbn in Hd. lia.
  - injection HL as HL. rewrite andb_true_iff, IH by exact HL. cbn [fst snd length]. split.
    + intros [H0 H] [|d] Hd; cbn [nth].
      * lia.
      * apply H. lia.
    + intros H. split.
      * specialize (H O ltac:(lia)). cbn [nth] in H. lia.
      * intros d Hd. apply (H (S d)). lia.
Qed.

Lemma copy_source_same s ix : length s = length ix -> reads_at s ix (copy_source s ix).
Proof.
  intros HL. unfold copy_source. rewrite HL, Nat.sub_diag. cbn [skipn].
  split; [rewrite map_length, combine_length; lia|].
  revert ix HL. induction s as [|n s IH]; intros [|i ix] HL d Hd; try discriminate HL; cbn in Hd; [lia|].
  injection HL as HL. destruct d as [|d]; cbn [combine map nth fst snd]; [reflexivity|]. apply IH; [exact HL|lia].
Qed.

Lemma reads_at_unique s ix jx jx' : reads_at s ix jx -> reads_at s ix jx' -> jx = jx'.
Proof.
  intros [L1 H1] [L2 H2]. apply (nth_ext _ _ 0 0); [lia|]. intros d Hd. rewrite H1, H2 by lia. reflexivity.
Qed.

Lemma reads_at_sw nd a b s ix jx : (a < nd)%nat -> (b < nd)%nat -> length s = nd ->
  reads_at s ix jx -> reads_at (sw nd a b s) (sw nd a b ix) (sw nd a b jx).
Proof.
  intros Ha Hb Hs [L H]. split; [now rewrite !sw_length|]. intros d Hd. rewrite sw_length in Hd.
  rewrite !sw_nth by lia. apply H. rewrite Hs. now apply xd_lt.
Qed.

Lemma fold_max_ge l : forall a, a <= fold_left Z.max l a /\ Forall (fun n => n <= fold_left Z.max l a) l /\ In (fold_left Z.max l a) (a :: l).
Proof.
  induction l as [|x l IH]; intros a; cbn [fold_left].
  - repeat split; [lia|constructor|now left].
  - destruct (IH (Z.max a x)) as (H1 & H2 & H3). split; [lia|]. split.
    + constructor; [lia|exact H2].
    + destruct H3 as [E|I].
      * rewrite <- E. destruct (Z.max_spec a x) as [[_ ->]|[_ ->]]; cbn; auto.
      * cbn. auto.
Qed.

Lemma longest_greatest (t0 : tensor) l : greatest (longest t0 l) (map first_size (t0 :: l)).
Proof.
  unfold longest, greatest. cbn [map]. destruct (fold_max_ge (map first_size l) (first_size t0)) as (H1 & H2 & H3).
  split; [exact H3|]. constructor; assumption.
Qed.

(* ---- pad_sequence of tensors of one rank *)

Lemma pad_tensors_same z bf nd (t0 : tensor) l : Forall (fun t => ndim t = S nd) (t0 :: l) ->
  (forall t, In t (t0 :: l) -> forall d, (0 < d <= nd)%nat -> nth d (shp t) 0 = nth d (shp t0) 0 \/ nth d (shp t) 0 = 1) ->
  exists r, pad_tensors z bf (t0 :: l) = Ok r /\
    shp r = (if bf then [zlen (t0 :: l); longest t0 l] else [longest t0 l; zlen (t0 :: l)]) ++ tl (shp t0) /\
    (forall b t p rest, nth_error (t0 :: l) b = Some t -> length rest = nd ->
       at_ r (if bf then Z.of_nat b :: p :: rest else p :: Z.of_nat b :: rest) =
         if p <? first_size t then at_ t (copy_source (shp t) (p :: rest)) else z).
Proof.
  intros HN HF. unfold pad_tensors.
  assert (N0 : ndim t0 = S nd) by (inversion HN; auto). rewrite N0. cbn [Nat.eqb].
  replace (existsb (fun t => Nat.eqb (ndim t) 0) (t0 :: l)) with false.
  2:{ symmetry. apply Bool.not_true_is_false. intros E. apply existsb_exists in E. destruct E as (t & I & E).
      rewrite Forall_forall in HN. rewrite (HN t I) in E. discriminate. }
  replace (forallb (fun t => copy_fits (shp t) (first_size t :: tl (shp t0))) (t0 :: l)) with true.
  2:{ symmetry. apply forallb_forall. intros t I. rewrite Forall_forall in HN. pose proof (HN t I) as Ht.
      unfold ndim in *. destruct (shp t0) as [|a0 r0] eqn:E0; [discriminate|]. cbn [tl length] in *.
      apply copy_fits_same; [cbn [length]; lia|]. intros [|d] Hd.
      - left. reflexivity.
      - cbn [nth]. apply (HF t I (S d)). lia. }
  eexists. split; [reflexivity|]. cbn [shp at_]. split; [reflexivity|].
  intros b t p rest Hb Hr. destruct bf; rewrite Nat2Z.id, Hb; reflexivity.
Qed.

Lemma pad_tensors_misfit z bf nd (t0 : tensor) l t d : Forall (fun t => ndim t = S nd) (t0 :: l) ->
  In t (t0 :: l) -> (0 < d <= nd)%nat -> nth d (shp t) 0 <> nth d (shp t0) 0 -> nth d (shp t) 0 <> 1 ->
  pad_tensors z bf (t0 :: l) = Err RuntimeError.
Proof.
  intros HN I Hd H1 H2. unfold pad_tensors.
  assert (N0 : ndim t0 = S nd) by (inversion HN; auto). rewrite N0. cbn [Nat.eqb].
  replace (existsb (fun t => Nat.eqb (ndim t) 0) (t0 :: l)) with false.
  2:{ symmetry. apply Bool.not_true_is_false. intros E. apply existsb_exists in E. destruct E as (t' & I' & E).
      rewrite Forall_forall in HN. rewrite (HN t' I') in E. discriminate. }
  replace (forallb (fun t => copy_fits (shp t) (first_size t :: tl (shp t0))) (t0 :: l)) with false; [reflexivity|].
  symmetry. apply Bool.not_true_is_false. intros E. rewrite forallb_forall in E. specialize (E t I).
  rewrite Forall_forall in HN. pose proof (HN t I) as Ht.
  unfold ndim in *. destruct (shp t0) as [|a0 r0] eqn:E0; [discriminate|]. cbn [tl length] in *.
  destruct d as [|d]; [lia|]. cbn [nth] in H1.
  assert (HL : length (shp t) = length (first_size t :: r0)) by (cbn [length]; lia).
  destruct (proj1 (copy_fits_same _ _ HL) E (S d) ltac:(lia)); cbn [nth] in *; tauto.
Qed.

(* ---- concatenate_ragged *)

Lemma sw_cons nd k b ix : (k < S nd)%nat -> length ix = S nd -> sw (S (S nd)) (S k) 1 (b :: ix) = b :: sw (S nd) k 0 ix.
Proof.
  intros Hk HL. apply (nth_ext _ _ 0 0).
  - cbn [length]. now rewrite !sw_length.
  - intros d Hd. rewrite sw_length in Hd. rewrite sw_nth by lia. destruct d as [|d].
    + reflexivity.
    + cbn [nth]. rewrite sw_nth by lia. unfold xd. cbn [Nat.eqb].
      destruct (Nat.eqb d k) eqn:E1; [reflexivity|]. destruct d as [|d]; cbn [Nat.eqb]; reflexivity.
Qed.

Definition turned (nd k : nat) (t t' : tensor) : Prop :=
  shp t' = sw (S nd) k 0 (shp t) /\ (forall ix, length ix = S nd -> at_ t' ix = at_ t (sw (S nd) k 0 ix)).

Lemma turn_all nd k (l : list tensor) : (k < S nd)%nat -> Forall (fun t => ndim t = S nd) l ->
  exists l', mapM (fun b => plain_transpose b (Z.of_nat k) 0) l = Ok l' /\ Forall2 (turned nd k) l l'.
Proof.
  intros Hk HN. rewrite Forall_forall in HN.
  assert (H : forall t, In t l -> exists t', plain_transpose t (Z.of_nat k) 0 = Ok t' /\ turned nd k t t').
  { intros t I. apply plain_transpose_ok.
    - now apply HN.
    - split; [lia|now left].
    - split; [lia|now left]. }
  destruct (mapM_all (fun b => plain_transpose b (Z.of_nat k) 0) l) as [l' E].
  { intros t I. destruct (H t I) as (t' & E & _). eauto. }
  exists l'. split; [exact E|]. apply mapM_Forall2 in E.
  clear HN. induction E as [|t t' l l' E1 E2 IH]; constructor.
  - destruct (H t (or_introl eq_refl)) as (t'' & E' & HT). congruence.
  - apply IH. intros x I. apply H. now right.
Qed.

Lemma turned_first nd k (t t' : tensor) : (k < S nd)%nat -> turned nd k t t' -> first_size t' = nth k (shp t) 0.
Proof.
  intros Hk [Hs _]. unfold first_size, size. rewrite Hs, sw_nth by lia. unfold xd.
  destruct (Nat.eqb 0 k) eqn:E; cbn [Nat.eqb]; [|reflexivity]. f_equal. lia.
Qed.

Lemma turned_other nd k (t t' : tensor) d : (k < S nd)%nat -> turned nd k t t' -> (0 < d <= nd)%nat ->
  nth d (shp t') 0 = nth (xd k 0 d) (shp t) 0 /\ xd k 0 d <> k /\ (xd k 0 d < S nd)%nat.
Proof.
  intros Hk [Hs _] Hd. rewrite Hs, sw_nth by lia. split; [reflexivity|].
  unfold xd. destruct (Nat.eqb d k) eqn:E1; [lia|]. destruct (Nat.eqb d 0) eqn:E2; lia.
Qed.

Lemma Forall2_zlen {A B} (P : A -> B -> Prop) l l' : Forall2 P l l' -> zlen l = zlen l'.
Proof. unfold zlen. induction 1; cbn [length]; lia. Qed.

Lemma Forall2_nth_error {A B} (P : A -> B -> Prop) l l' : Forall2 P l l' -> forall n a, nth_error l n = Some a -> exists b, nth_error l' n = Some b /\ P a b.
Proof.
  induction 1 as [|x y l l' Hxy _ IH]; intros [|n] a E; try discriminate E; cbn [nth_error] in *.
  - injection E as <-. eauto.
  - now apply IH.
Qed.

Lemma Forall2_In_r {A B} (P : A -> B -> Prop) l l' : Forall2 P l l' -> forall b, In b l' -> exists a, In a l /\ P a b.
Proof.
  induction 1 as [|x y l l' Hxy _ IH]; intros b I; [easy|]. destruct I as [<-|I].
  - exists x. cbn. auto.
  - destruct (IH b I) as (a & Ia & H). exists a. cbn. auto.
Qed.

Lemma Forall2_map_eq {A B C} (f : A -> C) (g : B -> C) (P : A -> B -> Prop) l l' : (forall a b, P a b -> f a = g b) -> Forall2 P l l' -> map f l = map g l'.
Proof. intros H. induction 1; cbn [map]; [reflexivity|]. f_equal; auto. Qed.

Lemma ragged_dim (t0 : tensor) l dim k : denotes (length (shp t0)) dim k ->
  (if 0 <=? dim then Ok dim else do t <- py_getitem (t0 :: l) 0; Ok (Z.of_nat (ndim t) + dim)) = Ok (Z.of_nat k).
Proof.
  intros [Hk [->| ->]].
  - destruct (Z.leb_spec 0 (Z.of_nat k)); [reflexivity|lia].
  - destruct (Z.leb_spec 0 (Z.of_nat k - Z.of_nat (length (shp t0)))); [lia|].
    unfold py_getitem. cbn. f_equal. unfold ndim. lia.
Qed.

Theorem ragged_general z dim k (t0 : tensor) l : denotes (length (shp t0)) dim k ->
  Forall (nearly_alike_but k t0) (t0 :: l) ->
  exists r, concatenate_ragged z (t0 :: l) dim = Ok r /\ stacked z k t0 (t0 :: l) r.
Proof.
  intros Hd HA. unfold concatenate_ragged. rewrite (ragged_dim _ _ _ _ Hd). cbn [bind].
  destruct Hd as [Hk _]. destruct (length (shp t0)) as [|nd] eqn:EN; [lia|].
  assert (HN : Forall (fun t => ndim t = S nd) (t0 :: l)).
  { eapply Forall_impl; [|exact HA]. intros t [H _]. unfold ndim. lia. }
  destruct (turn_all nd k (t0 :: l) Hk HN) as (ts & E & HT). rewrite E. cbn [bind].
  inversion HT as [|? tt0 ? ll T0 TL E1 E2]; subst.
  assert (HN' : Forall (fun t => ndim t = S nd) (tt0 :: ll)).
  { apply Forall_forall. intros t I. destruct (Forall2_In_r _ _ _ HT t I) as (u & _ & [Hs _]).
    unfold ndim. rewrite Hs. apply sw_length. }
  destruct (pad_tensors_same z true nd tt0 ll HN') as (r0 & E0 & S0 & A0).
  { intros t I d Hd. destruct (Forall2_In_r _ _ _ HT t I) as (u & Iu & Hu).
    destruct (turned_other nd k u t d Hk Hu Hd) as (-> & H1 & H2).
    destruct (turned_other nd k t0 tt0 d Hk T0 Hd) as (-> & _ & _).
    rewrite Forall_forall in HA. destruct (HA u Iu) as [_ H]. apply H; lia. }
  rewrite E0. cbn [bind].
  assert (L0 : length (shp tt0) = S nd) by (rewrite Forall_forall in HN'; apply (HN' tt0); now left).
  assert (N0 : ndim r0 = S (S nd)).
  { unfold ndim. rewrite S0. cbn [app length]. destruct (shp tt0); [discriminate|]. cbn [tl length] in *. lia. }
  destruct (plain_transpose_ok r0 (S nd) (Z.of_nat k + 1) 1 (S k) 1 N0) as (r & Er & Sr & Ar).
  { split; [lia|left; lia]. }
  { split; [lia|left; lia]. }
  exists r. split; [exact Er|]. constructor.
  - rewrite Sr, sw_length. lia.
  - rewrite Sr, sw_nth by lia. unfold xd. cbn [Nat.eqb]. rewrite S0. cbn [app nth].
    symmetry. apply (Forall2_zlen _ _ _ HT).
  - intros d Hd. destruct (Nat.lt_ge_cases d (S nd)) as [Hlt|Hge].
    2:{ rewrite !nth_overflow; [reflexivity|lia|rewrite Sr, sw_length; lia]. }
    rewrite Sr, sw_nth by lia. unfold xd. cbn [Nat.eqb]. replace (Nat.eqb d k) with false by lia.
    destruct d as [|d]; cbn [Nat.eqb].
    + rewrite S0. cbn [app nth]. destruct k as [|k]; [lia|]. destruct (shp tt0) as [|a0 q0] eqn:Eq; [discriminate|].
      cbn [tl nth]. destruct (turned_other nd (S k) t0 tt0 (S k) Hk T0 ltac:(lia)) as (H & _ & _).
      rewrite Eq in H. cbn [nth] in H. rewrite H. unfold xd. now rewrite Nat.eqb_refl.
    + rewrite S0. cbn [app nth]. destruct (shp tt0) as [|a0 q0] eqn:Eq; [discriminate|]. cbn [tl].
      destruct (turned_other nd k t0 tt0 (S d) Hk T0 ltac:(lia)) as (H & _ & _).
      rewrite Eq in H. cbn [nth] in H. rewrite H. unfold xd. replace (Nat.eqb (S d) k) with false by lia. reflexivity.
  - rewrite Sr, sw_nth by lia. unfold xd. rewrite Nat.eqb_refl. rewrite S0. cbn [app nth].
    replace (map (fun t => nth k (shp t) 0) (t0 :: l)) with (map first_size (tt0 :: ll)); [apply longest_greatest|].
    symmetry. apply (Forall2_map_eq _ _ _ _ _ (fun a b H => eq_sym (turned_first nd k a b Hk H)) HT).
  - intros b t ix jx Hb HL Hj Hlt. rewrite EN in HL. rewrite Ar by (cbn [length]; lia). rewrite sw_cons by (exact Hk || exact HL).
    destruct (Forall2_nth_error _ _ _ HT b t Hb) as (t' & Hb' & HT').
    pose proof (turned_first _ _ _ _ Hk HT') as HF. destruct HT' as [Hs Ha].
    assert (HP : nth 0 (sw (S nd) k 0 ix) 0 = nth k ix 0).
    { rewrite sw_nth by lia. unfold xd. destruct (Nat.eqb 0 k) eqn:Ek; cbn [Nat.eqb]; [|reflexivity]. f_equal. lia. }
    assert (HLs : length (sw (S nd) k 0 ix) = S nd) by apply sw_length.
    assert (Hln : length (shp t) = S nd).
    { apply nth_error_In in Hb. rewrite Forall_forall in HN. apply (HN t Hb). }
    pose proof (reads_at_sw (S nd) k 0 _ _ _ Hk ltac:(lia) Hln Hj) as HR. rewrite <- Hs in HR.
    assert (HC : copy_source (shp t') (sw (S nd) k 0 ix) = sw (S nd) k 0 jx).
    { eapply reads_at_unique; [|exact HR]. apply copy_source_same. now rewrite Hs, !sw_length. }
    destruct (sw (S nd) k 0 ix) as [|p rest] eqn:Ew; [discriminate|]. cbn [nth] in HP. cbn [length] in HLs.
    rewrite (A0 b t' p rest Hb' ltac:(lia)). rewrite HF, HP.
    destruct (Z.ltb_spec (nth k ix 0) (nth k (shp t) 0)); [|lia].
    rewrite HP in HC. rewrite HC. rewrite Ha by apply sw_length. rewrite sw_sw; [reflexivity|exact Hk|lia|].
    destruct Hj as [Hj _]. lia.
  - intros b t ix Hb HL Hge. rewrite EN in HL. rewrite Ar by (cbn [length]; lia). rewrite sw_cons by (exact Hk || exact HL).
    destruct (Forall2_nth_error _ _ _ HT b t Hb) as (t' & Hb' & HT').
    pose proof (turned_first _ _ _ _ Hk HT') as HF.
    assert (HP : nth 0 (sw (S nd) k 0 ix) 0 = nth k ix 0).
    { rewrite sw_nth by lia. unfold xd. destruct (Nat.eqb 0 k) eqn:Ek; cbn [Nat.eqb]; [|reflexivity]. f_equal. lia. }
    assert (HLs : length (sw (S nd) k 0 ix) = S nd) by apply sw_length.
    destruct (sw (S nd) k 0 ix) as [|p rest] eqn:Ew; [discriminate|]. cbn [nth] in HP. cbn [length] in HLs.
    rewrite (A0 b t' p rest Hb' ltac:(lia)). rewrite HF, HP.
    destruct (Z.ltb_spec (nth k ix 0) (nth k (shp t) 0)); [lia|reflexivity].
Qed.

(** Positions of tensors whose sizes agree are read as they are. *)
Lemma reads_at_self s ix : in_range s ix -> reads_at s ix ix.
Proof.
  intros H. split; [symmetry; induction H; cbn [length]; congruence|].
  induction H as [|n i s ix Hn _ IH]; intros d Hd; cbn [length] in Hd; [lia|].
  destruct d as [|d]; cbn [nth]; [|apply IH; lia]. destruct (Z.eqb_spec n 1); lia.
Qed.

Theorem ragged_misfit z dim k (t0 : tensor) l t d : denotes (length (shp t0)) dim k ->
  Forall (fun u => length (shp u) = length (shp t0)) l ->
  In t l -> (d < length (shp t0))%nat -> d <> k -> nth d (shp t) 0 <> nth d (shp t0) 0 -> nth d (shp t) 0 <> 1 ->
  concatenate_ragged z (t0 :: l) dim = Err RuntimeError.
Proof.
  intros Hd HL I Hdn Hdk H1 H2. unfold concatenate_ragged. rewrite (ragged_dim _ _ _ _ Hd). cbn [bind].
  destruct Hd as [Hk _]. destruct (length (shp t0)) as [|nd] eqn:EN; [lia|].
  assert (HN : Forall (fun t => ndim t = S nd) (t0 :: l)) by (constructor; assumption).
  destruct (turn_all nd k (t0 :: l) Hk HN) as (ts & E & HT). rewrite E. cbn [bind].
  inversion HT as [|? tt0 ? ll T0 TL E1 E2]; subst.
  assert (HN' : Forall (fun t => ndim t = S nd) (tt0 :: ll)).
  { apply Forall_forall. intros u Iu. destruct (Forall2_In_r _ _ _ HT u Iu) as (v & _ & [Hs _]).
    unfold ndim. rewrite Hs. apply sw_length. }
  assert (HX : exists t', In t' (tt0 :: ll) /\ turned nd k t t').
  { apply In_nth_error in I. destruct I as [n En].
    destruct (Forall2_nth_error _ _ _ HT (S n) t En) as (t' & E' & H). apply nth_error_In in E'. eauto. }
  destruct HX as (t' & I' & T'). 
  set (d' := xd k 0 d). assert (Hd' : (0 < d' <= nd)%nat).
  { unfold d', xd. destruct (Nat.eqb d k) eqn:Ea; [lia|]. destruct (Nat.eqb d 0) eqn:Eb; lia. }
  rewrite (pad_tensors_misfit z true nd tt0 ll t' d' HN' I' Hd'); [reflexivity| |].
  - destruct (turned_other nd k t t' d' Hk T' Hd') as (-> & _ & _).
    destruct (turned_other nd k t0 tt0 d' Hk T0 Hd') as (-> & _ & _). unfold d'. now rewrite xd_inv.
  - destruct (turned_other nd k t t' d' Hk T' Hd') as (-> & _ & _). unfold d'. now rewrite xd_inv.
Qed.

(** The dimension must exist; a negative one may lie up to one rank too low (line 71 adds the rank before torch does). *)
Theorem ragged_no_dim z dim (t0 : tensor) l : shp t0 <> [] ->
  (Z.of_nat (length (shp t0)) <= dim \/ dim < - 2 * Z.of_nat (length (shp t0))) ->
  concatenate_ragged z (t0 :: l) dim = Err IndexError.
Proof.
  intros H0 Hd. unfold concatenate_ragged.
  assert (HT : forall d, Z.of_nat (length (shp t0)) <= d \/ d < - Z.of_nat (length (shp t0)) -> plain_transpose t0 d 0 = Err IndexError).
  { intros d H. unfold plain_transpose, ndim. destruct (length (shp t0)) as [|nd] eqn:EN; [destruct (shp t0); [contradiction|discriminate]|].
    unfold norm_dim. destruct (Z.ltb_spec d 0).
    - replace ((d + Z.of_nat (S nd) <? 0) || (Z.of_nat (S nd) <=? d + Z.of_nat (S nd))) with true by lia. reflexivity.
    - replace ((d <? 0) || (Z.of_nat (S nd) <=? d)) with true by lia. reflexivity. }
  destruct (Z.leb_spec 0 dim).
  - cbn [bind]. rewrite mapM_cons, HT by lia. reflexivity.
  - change (py_getitem (t0 :: l) 0) with (@Ok tensor t0). cbn [bind].
    rewrite mapM_cons, HT by (unfold ndim; lia). reflexivity.
Qed.

End RaggedProofs.

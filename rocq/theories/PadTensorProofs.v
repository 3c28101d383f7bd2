(** Proofs about pad_chunks and pad_stream_tensor on tensors of any rank. *)

From Coq Require Import String List ZArith Bool Lia.
From Coq Require Import ZifyBool.
From Verif Require Import Py Meta MetaSpec Named NamedSpec MetaProofs PartitionProofs ConvMoreProofs NamedGetProofs NamedIndexProofs NamedOpsProofs
  NamedShapeProofs Ragged RaggedSpec RaggedProofs.
Import ListNotations.
Open Scope Z_scope.

(* ---- the order with the length dimension first *)

Lemma filter_all {A} (f : A -> bool) l : (forall x, In x l -> f x = true) -> filter f l = l.
Proof.
  induction l as [|a l IH]; intros H; [reflexivity|]. cbn [filter]. rewrite (H a) by now left. f_equal. apply IH.
  intros x I. apply H. now right.
Qed.

Lemma front_order k m : k :: filter (fun d => negb (Nat.eqb d k)) (seq 0 (k + S m)) = k :: seq 0 k ++ seq (S k) m.
Proof.
  f_equal. rewrite seq_app, filter_app. cbn [seq Nat.add]. f_equal.
  - apply filter_all. intros x I. apply in_seq in I. lia.
  - cbn [filter]. rewrite Nat.eqb_refl. cbn [negb]. apply filter_all. intros x I. apply in_seq in I. lia.
Qed.

Section PadTensorProofs.
Context {V : Type}.
Notation tensor := (@tensor V).
Notation stensor := (@stensor V).

(** [t'] is [t] with the dimension [k] moved to the front. *)
Definition fronted (k m : nat) (t t' : tensor) : Prop :=
  (exists s1 n s2, shp t = s1 ++ n :: s2 /\ length s1 = k /\ length s2 = m /\ shp t' = n :: s1 ++ s2) /\
  (forall a p c, length a = k -> length c = m -> at_ t' (p :: a ++ c) = at_ t (a ++ p :: c)).

Lemma split_at {A} k m (l : list A) : length l = (k + S m)%nat -> exists s1 n s2, l = s1 ++ n :: s2 /\ length s1 = k /\ length s2 = m.
Proof.
  intros H. pose proof (firstn_skipn k l) as E. destruct (skipn k l) as [|n s2] eqn:Es.
  - apply (f_equal (@length A)) in Es. rewrite skipn_length in Es. cbn in Es. lia.
  - exists (firstn k l), n, s2. split; [now symmetry|]. rewrite firstn_length. split; [lia|].
    apply (f_equal (@length A)) in Es. rewrite skipn_length in Es. cbn [length] in Es. lia.
Qed.

Lemma map_nth_pre (s1 s2 : list Z) : map (fun d => nth d (s1 ++ s2) 0) (seq 0 (length s1)) = s1.
Proof.
  apply (nth_ext _ _ 0 0); [now rewrite map_length, seq_length|]. intros d Hd. rewrite map_length, seq_length in Hd.
  rewrite (nth_indep _ 0 ((fun d => nth d (s1 ++ s2) 0) O)) by (rewrite map_length, seq_length; lia).
  rewrite (map_nth (fun d => nth d (s1 ++ s2) 0)), seq_nth by lia. cbn. now rewrite app_nth1.
Qed.

Lemma map_nth_post (s1 s2 : list Z) : map (fun d => nth d (s1 ++ s2) 0) (seq (length s1) (length s2)) = s2.
Proof.
  apply (nth_ext _ _ 0 0); [now rewrite map_length, seq_length|]. intros d Hd. rewrite map_length, seq_length in Hd.
  rewrite (nth_indep _ 0 ((fun d => nth d (s1 ++ s2) 0) O)) by (rewrite map_length, seq_length; lia).
  rewrite (map_nth (fun d => nth d (s1 ++ s2) 0)), seq_nth by lia. cbn. rewrite app_nth2 by lia. f_equal. lia.
Qed.

Lemma front_ok k m (t : tensor) : length (shp t) = (k + S m)%nat ->
  exists t', torch_permute t (k :: seq 0 k ++ seq (S k) m) = Ok t' /\ fronted k m t t'.
Proof.
  intros HN.
  destruct (torch_permute_permuted t (k :: seq 0 k ++ seq (S k) m)) as (t' & E & [Hs Ha] & _).
  - cbn [length]. rewrite app_length, !seq_length. unfold ndim. lia.
  - intros d Hd. unfold ndim in Hd. cbn [In]. rewrite in_app_iff, !in_seq. lia.
  - exists t'. split; [exact E|]. split.
    + destruct (split_at k m (shp t) HN) as (s1 & n & s2 & Et & L1 & L2). exists s1, n, s2. repeat (split; [assumption|]).
      rewrite Hs, Et. cbn [map]. rewrite map_app. f_equal.
      * rewrite app_nth2 by lia. rewrite L1, Nat.sub_diag. reflexivity.
      * f_equal.
        -- rewrite <- L1. apply map_nth_pre.
        -- change (s1 ++ n :: s2) with (s1 ++ [n] ++ s2). rewrite app_assoc.
           replace (S k) with (length (s1 ++ [n])) by (rewrite app_length; cbn; lia). rewrite <- L2. apply map_nth_post.
    + intros a p c La Lc. apply Ha.
      * cbn [length]. rewrite !app_length, !seq_length. lia.
      * cbn [length]. rewrite !app_length, !seq_length. cbn [length]. lia.
      * intros j Hj. cbn [length] in Hj. rewrite app_length, !seq_length in Hj. destruct j as [|j]; cbn [nth].
        -- rewrite app_nth2 by lia. now rewrite La, Nat.sub_diag.
        -- destruct (Nat.lt_ge_cases j k) as [Hlt|Hge].
           ++ rewrite (app_nth1 (seq 0 k)) by (rewrite seq_length; lia). rewrite seq_nth by lia. cbn [Nat.add].
              now rewrite !app_nth1 by lia.
           ++ rewrite (app_nth2 (seq 0 k)) by (rewrite seq_length; lia). rewrite seq_length, seq_nth by lia.
              rewrite !app_nth2 by lia. rewrite La. replace (S k + (j - k) - k)%nat with (S (j - k)) by lia. reflexivity.
Qed.

Lemma front_all k m (l : list tensor) : Forall (fun t => length (shp t) = (k + S m)%nat) l ->
  exists l', (if Nat.eqb k 0 then Ok l else mapM (fun t => torch_permute t (k :: seq 0 k ++ seq (S k) m)) l) = Ok l' /\
             Forall2 (fronted k m) l l'.
Proof.
  intros HN. destruct (Nat.eqb_spec k 0) as [->|Hk].
  - exists l. split; [reflexivity|]. induction HN as [|t l Ht _ IH]; constructor; [|exact IH].
    split.
    + destruct (shp t) as [|n s2] eqn:E; [discriminate|]. exists [], n, s2. cbn in *. repeat split; auto.
    + intros [|] p c La Lc; [reflexivity|discriminate].
  - rewrite Forall_forall in HN.
    destruct (mapM_all (fun t => torch_permute t (k :: seq 0 k ++ seq (S k) m)) l) as [l' E].
    { intros t I. destruct (front_ok k m t (HN t I)) as (t' & E & _). eauto. }
    exists l'. split; [exact E|]. apply mapM_Forall2 in E.
    induction E as [|t t' l l' E1 E2 IH]; constructor.
    + destruct (front_ok k m t (HN t (or_introl eq_refl))) as (t'' & E' & HT). congruence.
    + apply IH. intros x I. apply HN. now right.
Qed.

Lemma fronted_first k m (t t' : tensor) : fronted k m t t' -> first_size t' = nth k (shp t) 0.
Proof.
  intros [(s1 & n & s2 & E & L1 & _ & E') _]. unfold first_size, size. rewrite E, E'. cbn [nth].
  rewrite app_nth2 by lia. now rewrite L1, Nat.sub_diag.
Qed.

Definition past (k j : nat) : nat := if Nat.ltb j k then j else S j.

Lemma nth_mid (a c : list Z) p j : nth (past (length a) j) (a ++ p :: c) 0 = nth j (a ++ c) 0.
Proof.
  unfold past. destruct (Nat.ltb_spec j (length a)).
  - now rewrite !app_nth1 by lia.
  - rewrite !app_nth2 by lia. replace (S j - length a)%nat with (S (j - length a)) by lia. reflexivity.
Qed.

Lemma fronted_other k m (t t' : tensor) d : fronted k m t t' -> (0 < d)%nat ->
  nth d (shp t') 0 = nth (past k (pred d)) (shp t) 0.
Proof.
  intros [(s1 & n & s2 & E & L1 & _ & E') _] Hd. rewrite E, E'. destruct d as [|d]; [lia|]. cbn [nth pred].
  subst k. now rewrite nth_mid.
Qed.

Lemma fronted_ndim k m (t t' : tensor) : fronted k m t t' -> ndim t' = S (k + m).
Proof. intros [(s1 & n & s2 & E & L1 & L2 & E') _]. unfold ndim. rewrite E'. cbn [length]. rewrite app_length. lia. Qed.

(* ---- names *)

Lemma names_index_mid n (pre post : list dname) : ~ In n pre -> names_index n (pre ++ n :: post) = Ok (length pre).
Proof.
  induction pre as [|a pre IH]; intros H; cbn [app names_index length].
  - now rewrite (proj2 (dname_eqb_eq n n) eq_refl).
  - destruct (dname_eqb a n) eqn:E; [apply dname_eqb_eq in E; exfalso; apply H; now left|].
    rewrite IH by (intros I; apply H; now right). reflexivity.
Qed.

Lemma distinct_mid (pre post : list dname) s : names_distinct (pre ++ Some s :: post) -> ~ In (Some s) pre /\ ~ In (Some s) post.
Proof.
  intros H. split; intros I; apply In_nth_error in I; destruct I as [j Ej].
  - assert (Hj : (j < length pre)%nat) by (apply nth_error_Some; intros Q; discriminate (eq_trans (eq_sym Ej) Q)).
    specialize (H j (length pre) s). rewrite nth_error_app1, nth_error_app2, Nat.sub_diag in H by lia.
    specialize (H Ej eq_refl). lia.
  - specialize (H (length pre) (length pre + S j)%nat s). rewrite !nth_error_app2, Nat.sub_diag in H by lia.
    replace (length pre + S j - length pre)%nat with (S j) in H by lia. specialize (H eq_refl Ej). lia.
Qed.

Lemma filter_mid (pre post : list dname) n : ~ In n pre -> ~ In n post ->
  filter (fun a => negb (dname_eqb a n)) (pre ++ n :: post) = pre ++ post.
Proof.
  intros H1 H2. rewrite filter_app. cbn [filter]. rewrite (proj2 (dname_eqb_eq n n) eq_refl). cbn [negb].
  rewrite !filter_all; [reflexivity| |]; intros x I; destruct (dname_eqb x n) eqn:E; try reflexivity;
    apply dname_eqb_eq in E; subst; contradiction.
Qed.

Lemma distinct_out_names bf (pre post : list dname) : names_distinct (pre ++ Some "L"%string :: post) -> ~ In (Some "B"%string) (pre ++ post) ->
  names_distinct (lead bf (Some "B"%string) (Some "L"%string) ++ pre ++ post).
Proof.
  intros HD HB. destruct (distinct_mid _ _ _ HD) as [N1 N2].
  assert (HP : names_distinct (pre ++ post)).
  { intros i j s Ei Ej.
    assert (T : forall u v, nth_error (pre ++ post) u = Some v -> nth_error (pre ++ Some "L"%string :: post) (past (length pre) u) = Some v).
    { intros u v Eu. unfold past. destruct (Nat.ltb_spec u (length pre)).
      - rewrite nth_error_app1 in * by lia. exact Eu.
      - rewrite nth_error_app2 in * by lia. replace (S u - length pre)%nat with (S (u - length pre)) by lia. exact Eu. }
    specialize (HD _ _ s (T _ _ Ei) (T _ _ Ej)). unfold past in HD.
    destruct (Nat.ltb_spec i (length pre)), (Nat.ltb_spec j (length pre)); lia. }
  assert (NL : ~ In (Some "L"%string) (pre ++ post)) by (rewrite in_app_iff; tauto).
  assert (C : forall n l, ~ In (Some n) l -> names_distinct l -> names_distinct (Some n :: l)).
  { intros n l Hn Hl [|i] [|j] s Ei Ej; cbn [nth_error] in *; try reflexivity.
    - injection Ei as ->. exfalso. apply Hn. now apply nth_error_In with j.
    - injection Ej as ->. exfalso. apply Hn. now apply nth_error_In with i.
    - f_equal. now apply (Hl i j s). }
  destruct bf; cbn [lead app]; apply C; try (apply C; assumption); intros [H|H]; try discriminate H; contradiction.
Qed.

(* ---- pad_chunks *)

Lemma mapM_first (l : list tensor) : Forall (fun t => ndim t <> O) l ->
  mapM (fun t => if Nat.eqb (ndim t) 0 then Err IndexError else Ok (first_size t)) l = Ok (map first_size l).
Proof.
  intros H. apply mapM_ok. intros t I. rewrite Forall_forall in H. specialize (H t I).
  now replace (Nat.eqb (ndim t) 0) with false by lia.
Qed.

Lemma reads_front k m (t t' : tensor) a p c jx : fronted k m t t' -> length a = k -> length c = m ->
  reads_at (shp t) (a ++ p :: c) jx -> at_ t' (copy_source (shp t') (p :: a ++ c)) = at_ t jx.
Proof.
  intros HF La Lc [Lj Hj]. pose proof HF as [(s1 & n & s2 & E & L1 & L2 & E') Ha].
  assert (Lt : length jx = (k + S m)%nat) by (rewrite Lj, E, app_length; cbn [length]; lia).
  destruct (split_at k m jx Lt) as (a' & p' & c' & -> & La' & Lc').
  assert (HR : reads_at (shp t') (p :: a ++ c) (p' :: a' ++ c')).
  { rewrite E'. split; [cbn [length]; rewrite !app_length; lia|]. intros [|d] Hd; cbn [nth].
    - specialize (Hj k). rewrite E, !app_length in Hj. cbn [length] in Hj. specialize (Hj ltac:(lia)).
      rewrite !app_nth2, La', L1, La, Nat.sub_diag in Hj by lia. exact Hj.
    - cbn [length] in Hd. rewrite app_length in Hd. specialize (Hj (past k d)).
      rewrite E, !app_length in Hj. cbn [length] in Hj.
      assert (HP : (past k d < length s1 + S (length s2))%nat) by (unfold past; destruct (Nat.ltb_spec d k); lia).
      specialize (Hj HP). rewrite <- La' in Hj at 1. rewrite nth_mid in Hj. rewrite <- L1 in Hj at 1. rewrite nth_mid in Hj.
      rewrite <- La in Hj at 1. rewrite nth_mid in Hj. exact Hj. }
  replace (copy_source (shp t') (p :: a ++ c)) with (p' :: a' ++ c').
  - apply Ha; assumption.
  - symmetry. eapply reads_at_unique; [|exact HR]. apply copy_source_same. rewrite E'. cbn [length]. rewrite !app_length. lia.
Qed.

Theorem pad_chunks_general z bf (pre post : list dname) (t0 : tensor) l i s e :
  names_distinct (pre ++ Some "L"%string :: post) -> ~ In (Some "B"%string) (pre ++ post) ->
  length (shp t0) = (length pre + S (length post))%nat ->
  Forall (nearly_alike_but (length pre) t0) (t0 :: l) ->
  length i = S (length l) -> length s = S (length l) -> length e = S (length l) ->
  exists x, pad_chunks_t z (t0 :: l) (pre ++ Some "L"%string :: post) i s e bf = Ok x /\ padded z bf pre post t0 (t0 :: l) i s e x.
Proof.
  intros HD HB H0 HA Li Ls Le. destruct (distinct_mid _ _ _ HD) as [N1 N2].
  set (k := length pre) in *. set (m := length post) in *.
  unfold pad_chunks_t.
  replace (names_mem (Some BATCH) (pre ++ Some "L"%string :: post)) with false.
  2:{ symmetry. apply Bool.not_true_is_false. intros E. apply names_mem_In in E. apply in_app_iff in E.
      rewrite in_app_iff in HB. destruct E as [E|[E|E]]; [tauto|discriminate E|tauto]. }
  change (Some LENGTH) with (Some "L"%string). rewrite names_index_mid by exact N1. cbn [bind]. fold k.
  match goal with |- context [filter (fun d => negb (Nat.eqb d ?q)) _] => change q with k end.
  match goal with |- context [seq 0 ?q] => replace q with (k + S m)%nat by (rewrite app_length; reflexivity) end.
  rewrite front_order.
  assert (HN : Forall (fun t => length (shp t) = (k + S m)%nat) (t0 :: l)).
  { eapply Forall_impl; [|exact HA]. intros t [H _]. lia. }
  destruct (front_all k m (t0 :: l) HN) as (ts & E & HT). rewrite E. cbn [bind].
  inversion HT as [|? tt0 ? ll T0 TL E1 E2]; subst.
  assert (HN' : Forall (fun t => ndim t = S (k + m)) (tt0 :: ll)).
  { apply Forall_forall. intros t I. destruct (Forall2_In_r _ _ _ HT t I) as (u & _ & Hu). now apply (fronted_ndim k m u t). }
  rewrite mapM_first.
  2:{ eapply Forall_impl; [|exact HN']. intros t Ht. cbn in Ht. lia. }
  cbn [bind].
  destruct (pad_tensors_same z bf (k + m) tt0 ll HN') as (r0 & E0 & S0 & A0).
  { intros t I d Hd. destruct (Forall2_In_r _ _ _ HT t I) as (u & Iu & Hu).
    rewrite (fronted_other k m u t d Hu) by lia. rewrite (fronted_other k m t0 tt0 d T0) by lia.
    rewrite Forall_forall in HA. destruct (HA u Iu) as [_ H]. apply H; unfold past; destruct (Nat.ltb_spec (pred d) k); lia. }
  rewrite E0. cbn [bind]. rewrite filter_mid by assumption.
  pose proof T0 as [(s1 & n & s2 & Et0 & L1 & L2 & Ett0) _].
  change (if bf then [Some BATCH; Some "L"%string] else [Some "L"%string; Some BATCH]) with (lead bf (Some "B"%string) (Some "L"%string)).
  rewrite rename_ok.
  3:{ now apply distinct_out_names. }
  2:{ unfold ndim. rewrite S0, Ett0. cbn [tl]. rewrite !app_length. clear -L1 L2. subst k m. unfold dname in *. destruct bf; cbn [lead length]; lia. }
  cbn [bind].
  assert (Hlen : length ll = length l) by (clear -TL; induction TL; cbn [length]; lia).
  unfold make_meta. rewrite map_length. cbn [length].
  replace (Nat.eqb (length i) (S (length ll)) && Nat.eqb (S (length ll)) (length s) && Nat.eqb (length s) (length e))%bool with true by lia.
  cbn [bind].
  assert (HS : map first_size (tt0 :: ll) = map (fun t => nth k (shp t) 0) (t0 :: l)).
  { symmetry. apply (Forall2_map_eq _ _ _ _ _ (fun a b H => eq_sym (fronted_first k m a b H)) HT). }
  eexists. split; [reflexivity|]. constructor; cbn [names smeta tn].
  - reflexivity.
  - f_equal. exact HS.
  - exists (longest tt0 ll), s1, n, s2. repeat (split; [assumption|]). split.
    + rewrite S0, Ett0. cbn [tl]. rewrite (Forall2_zlen _ _ _ HT). destruct bf; reflexivity.
    + pose proof (longest_greatest tt0 ll) as HG. rewrite HS in HG. exact HG.
  - intros b t a p c jx Hb La Lc Hj Hp. destruct (Forall2_nth_error _ _ _ HT b t Hb) as (t' & Hb' & HT').
    replace (lead bf (Z.of_nat b) p ++ a ++ c) with (if bf then Z.of_nat b :: p :: a ++ c else p :: Z.of_nat b :: a ++ c) by (destruct bf; reflexivity).
    rewrite (A0 b t' p (a ++ c) Hb') by (rewrite app_length; lia). rewrite (fronted_first k m t t' HT').
    destruct (Z.ltb_spec p (nth k (shp t) 0)); [|change (nth k (shp t) 0 <= p) in H; exfalso; apply (Z.lt_irrefl p); eapply Z.lt_le_trans; [exact Hp|exact H]]. now apply (reads_front k m t t' a p c jx).
  - intros b t a p c Hb La Lc Hp. destruct (Forall2_nth_error _ _ _ HT b t Hb) as (t' & Hb' & HT').
    replace (lead bf (Z.of_nat b) p ++ a ++ c) with (if bf then Z.of_nat b :: p :: a ++ c else p :: Z.of_nat b :: a ++ c) by (destruct bf; reflexivity).
    rewrite (A0 b t' p (a ++ c) Hb') by (rewrite app_length; lia). rewrite (fronted_first k m t t' HT').
    destruct (Z.ltb_spec p (nth k (shp t) 0)); [exfalso; apply (Z.lt_irrefl p); eapply Z.lt_le_trans; [exact H|exact Hp]|reflexivity].
Qed.

(** Refusals. *)
Lemma pad_chunks_batch z (ts : list tensor) nms i s e bf : In (Some "B"%string) nms -> pad_chunks_t z ts nms i s e bf = Err ValueError.
Proof. intros H. unfold pad_chunks_t. change (Some BATCH) with (Some "B"%string). now rewrite (proj2 (names_mem_In _ _) H). Qed.

Lemma pad_chunks_nolength z (ts : list tensor) nms i s e bf : ~ In (Some "L"%string) nms -> pad_chunks_t z ts nms i s e bf = Err ValueError.
Proof.
  intros H. unfold pad_chunks_t. destruct (names_mem (Some BATCH) nms); [reflexivity|].
  replace (names_index (Some LENGTH) nms) with (@Err nat ValueError); [reflexivity|].
  change (Some LENGTH) with (Some "L"%string). clear -H. symmetry. induction nms as [|a nms IH]; [reflexivity|]. cbn [names_index].
  destruct (dname_eqb a (Some "L"%string)) eqn:E; [apply dname_eqb_eq in E; exfalso; apply H; now left|].
  rewrite IH by (intros I; apply H; now right). reflexivity.
Qed.

End PadTensorProofs.

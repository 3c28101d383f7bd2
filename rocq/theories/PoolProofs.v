(** Proofs about pooling layers (Pool.v). *)

From Coq Require Import String List ZArith Bool Lia.
From Coq Require Import ZifyBool.
From Verif Require Import Py Meta MetaSpec MetaProofs MetaBatchProofs Pad Conv Pool PoolSpec.
Import ListNotations.
Open Scope nat_scope.

Section PoolProofs.
Context {V : Type}.

Definition pool_len (c : pool_cfg V) (n : nat) : nat := if n <? pk c then 0 else (n - pk c) / pst c + 1.

Lemma pool_len_fits (c : pool_cfg V) n : 0 < pst c -> fits_windows c n (pool_len c n).
Proof.
  intros S0. unfold fits_windows, pool_len. destruct (Nat.ltb_spec n (pk c)) as [L|L].
  - split; [lia|]. nia.
  - pose proof (Nat.div_mod (n - pk c) (pst c)) as D. pose proof (Nat.mod_upper_bound (n - pk c) (pst c)) as M. split; intros; nia.
Qed.

Lemma fits_unique (c : pool_cfg V) n a b : 0 < pst c -> fits_windows c n a -> fits_windows c n b -> a = b.
Proof.
  intros S0 (A1 & A2) (B1 & B2). destruct (Nat.lt_trichotomy a b) as [L|[L|L]]; [|exact L|].
  - specialize (B1 a L). lia.
  - specialize (A1 b L). lia.
Qed.

Lemma pooled_fits (c : pool_cfg V) l o : pooled c l o -> fits_windows c (length l) (length o).
Proof. intros (A & B). split; [intros i Hi; now apply A|exact B]. Qed.

Lemma pool_call_inv (c : pool_cfg V) (x y : batch V) : pool_call c x = Ok y ->
  0 < pk c /\ 0 < pst c /\ pk c <= bw x /\ bw y = pool_len c (bw x) /\ bd y = map (pool_row c (bw y)) (bd x) /\ bm y = bm x.
Proof.
  unfold pool_call, torch_pool. destruct ((pk c =? 0) || (pst c =? 0) || (bw x <? pk c)) eqn:E; [discriminate|]. cbn [bind].
  intros [= <-]. cbn [bw bd bm]. unfold pool_len. replace (bw x <? pk c) with false by lia. repeat split; lia.
Qed.

Lemma pool_call_ok (c : pool_cfg V) (x : batch V) : (exists y, pool_call c x = Ok y) <-> 0 < pk c /\ 0 < pst c /\ pk c <= bw x.
Proof.
  split; [intros (y & H); apply pool_call_inv in H; tauto|]. intros (A & B & C). unfold pool_call, torch_pool.
  replace ((pk c =? 0) || (pst c =? 0) || (bw x <? pk c)) with false by lia. eexists. reflexivity.
Qed.

Lemma pool_row_nth (c : pool_cfg V) n r i : i < n -> nth_error (pool_row c n r) i = Some (pfun c (firstn (pk c) (skipn (i * pst c) r))).
Proof.
  intros H. unfold pool_row. rewrite nth_error_map. rewrite (nth_error_nth' _ 0) by (rewrite seq_length; exact H).
  rewrite seq_nth by exact H. reflexivity.
Qed.

Lemma nth_error_firstn' {A} (l : list A) : forall n i, i < n -> nth_error (firstn n l) i = nth_error l i.
Proof. induction l as [|a l IH]; intros [|n] [|i] H; cbn; try reflexivity; try lia. apply IH. lia. Qed.

(** The part of the output that comes from the real data. *)
Lemma pool_real (c : pool_cfg V) (x y : batch V) r n : pool_call c x = Ok y -> In r (bd x) -> length r = bw x -> n <= bw x ->
  pooled c (firstn n r) (firstn (pool_len c n) (pool_row c (bw y) r)).
Proof.
  intros H Hr L Hn. apply pool_call_inv in H as (K & S0 & W & E & _ & _).
  assert (Lr : length (pool_row c (bw y) r) = bw y) by (unfold pool_row; now rewrite map_length, seq_length).
  assert (LE : pool_len c n <= bw y).
  { rewrite E. pose proof (pool_len_fits c n S0) as (A1 & A2). pose proof (pool_len_fits c (bw x) S0) as (B1 & B2).
    destruct (Nat.le_gt_cases (pool_len c n) (pool_len c (bw x))) as [G|G]; [exact G|]. specialize (A1 _ G). lia. }
  assert (Lo : length (firstn (pool_len c n) (pool_row c (bw y) r)) = pool_len c n) by (rewrite firstn_length; lia).
  assert (Lf : length (firstn n r) = n) by (rewrite firstn_length; lia).
  pose proof (pool_len_fits c n S0) as (A1 & A2). split; rewrite Lf, Lo; [|exact A2].
  intros i Hi. specialize (A1 i Hi). split; [exact A1|]. rewrite nth_error_firstn' by exact Hi. rewrite pool_row_nth by lia.
  do 2 f_equal. rewrite skipn_firstn_comm, firstn_firstn. f_equal. lia.
Qed.

(** The metadata do not fit. *)
Lemma pool_meta (c : pool_cfg V) (x y : batch V) : pool_call c x = Ok y -> 1 < pk c -> bw y < bw x /\ bm y = bm x.
Proof.
  intros H K. apply pool_call_inv in H as (_ & S0 & W & E & _ & M). split; [|exact M]. rewrite E. unfold pool_len.
  replace (bw x <? pk c) with false by lia. pose proof (Nat.div_le_upper_bound (bw x - pk c) (pst c) (bw x - pk c)). nia.
Qed.

Lemma mapM_all {A B} (f : A -> res B) l ys : mapM f l = Ok ys -> forall a, In a l -> exists b, f a = Ok b.
Proof.
  revert ys. induction l as [|a l IH]; intros ys H b Hb; [destruct Hb|]. unfold mapM in H. cbn [map seqM] in H.
  destruct (f a) as [b0|] eqn:E; [|discriminate]. cbn [bind] in H. destruct (seqM (map f l)) as [bs|] eqn:E2; [|discriminate].
  destruct Hb as [<-|Hb]; [eauto|]. eapply IH; eauto.
Qed.

(** Chunks of a multiple of the stride. *)
Lemma pooled_app (c : pool_cfg V) a b oa ob : 0 < pst c -> pk c = pst c -> Nat.divide (pst c) (length a) -> pooled c a oa -> pooled c b ob ->
  pooled c (a ++ b) (oa ++ ob).
Proof.
  intros S0 K (q & Q) (A1 & A2) (B1 & B2). rewrite K in *.
  assert (Lq : length oa = q).
  { destruct (Nat.lt_trichotomy (length oa) q) as [L|[L|L]]; [nia|exact L|]. specialize (A1 q L). nia. }
  split; rewrite !app_length.
  - intros i Hi. destruct (Nat.lt_ge_cases i (length oa)) as [L|L].
    + specialize (A1 i L) as (C1 & C2). split; [rewrite K; nia|]. rewrite nth_error_app1 by exact L. rewrite C2. do 2 f_equal.
      rewrite K, skipn_app, firstn_app, skipn_length. replace (pst c - (length a - i * pst c)) with 0 by lia. rewrite firstn_O, app_nil_r. reflexivity.
    + specialize (B1 (i - length oa) ltac:(lia)) as (C1 & C2). split; [rewrite K; nia|]. rewrite nth_error_app2 by exact L. rewrite C2. do 2 f_equal.
      rewrite K, skipn_app. rewrite (skipn_all2 a) by nia. cbn [app]. f_equal. f_equal. nia.
  - rewrite K. nia.
Qed.

(** Overlapping windows: columns are lost at every boundary. *)
Lemma pooled_loses (c : pool_cfg V) a b oa ob o : 0 < pst c -> 2 * pst c <= pk c -> pk c <= length a -> pk c <= length b ->
  pooled c a oa -> pooled c b ob -> pooled c (a ++ b) o -> length oa + length ob < length o.
Proof.
  intros S0 K LA LB (A1 & A2) (B1 & B2) (C1 & C2). rewrite app_length in *.
  assert (HA : 0 < length oa) by nia. assert (HB : 0 < length ob) by nia.
  pose proof (A1 (length oa - 1) ltac:(lia)) as (A3 & _). pose proof (B1 (length ob - 1) ltac:(lia)) as (B3 & _). nia.
Qed.

Lemma pool_chunk (c : pool_cfg V) (x y : batch V) j r n : pool_call c x = Ok y -> nth_error (bd x) j = Some r -> length r = bw x -> n <= bw x ->
  exists o m, nth_error (bd y) j = Some o /\ fits_windows c n m /\ pooled c (firstn n r) (firstn m o).
Proof.
  intros H Hj L Hn. exists (pool_row c (bw y) r), (pool_len c n). pose proof (pool_call_inv c x y H) as (_ & S0 & _ & _ & D & _).
  split; [rewrite D, nth_error_map, Hj; reflexivity|]. split; [now apply pool_len_fits|].
  apply (pool_real c x); auto. eapply nth_error_In; eauto.
Qed.

Lemma pool_shape (c : pool_cfg V) (x y : batch V) : pool_call c x = Ok y ->
  fits_windows c (bw x) (bw y) /\ length (bd y) = length (bd x) /\ Forall (fun o => length o = bw y) (bd y).
Proof.
  intros H. pose proof (pool_call_inv c x y H) as (_ & S0 & _ & W & D & _). split; [rewrite W; now apply pool_len_fits|].
  split; [rewrite D; apply map_length|]. rewrite D. apply Forall_forall. intros o Ho. apply in_map_iff in Ho as (r & <- & _).
  unfold pool_row. now rewrite map_length, seq_length.
Qed.

Lemma pooled_concat (c : pool_cfg V) ls os : 0 < pst c -> pk c = pst c -> Forall (fun l => Nat.divide (pst c) (length l)) ls -> Forall2 (pooled c) ls os ->
  pooled c (List.concat ls) (List.concat os).
Proof.
  intros S0 K D F. induction F as [|l o ls os H F IH]; cbn [List.concat].
  - split; cbn; lia.
  - inversion D; subst. apply pooled_app; auto.
Qed.

Lemma nth_error_ext_len {A} (l : list A) : forall m, length l = length m -> (forall i, i < length l -> nth_error l i = nth_error m i) -> l = m.
Proof.
  induction l as [|a l IH]; intros [|b m] L H; cbn in L; try discriminate; [reflexivity|]. f_equal.
  - specialize (H 0 ltac:(cbn; lia)). now injection H.
  - apply IH; [lia|]. intros i Hi. exact (H (S i) ltac:(cbn; lia)).
Qed.

Lemma pooled_unique (c : pool_cfg V) l o o' : 0 < pst c -> pooled c l o -> pooled c l o' -> o = o'.
Proof.
  intros S0 A B. pose proof (fits_unique c _ _ _ S0 (pooled_fits c l o A) (pooled_fits c l o' B)) as E.
  destruct A as (A & _), B as (B & _). apply nth_error_ext_len; [exact E|]. intros i Hi. rewrite (proj2 (A i Hi)). symmetry. apply B. lia.
Qed.

(** A chunk with one stream, without padding. *)
Lemma pool_one (c : pool_cfg V) l m y : pool_call c (mkBatch (length l) [l] m) = Ok y ->
  0 < pst c /\ exists o, bd y = [o] /\ length o = bw y /\ pooled c l o.
Proof.
  intros H. pose proof (pool_call_inv c _ y H) as (_ & S0 & _ & E & D & _). cbn [bw bd map] in E, D. split; [exact S0|].
  assert (Lo : length (pool_row c (bw y) l) = bw y) by (unfold pool_row; now rewrite map_length, seq_length).
  exists (pool_row c (bw y) l). split; [exact D|]. split; [exact Lo|].
  pose proof (pool_real c _ y l (length l) H (or_introl eq_refl) eq_refl (le_n _)) as P. rewrite <- E in P.
  rewrite firstn_all in P. rewrite <- Lo in P at 1. now rewrite firstn_all in P.
Qed.

Lemma pool_stream (c : pool_cfg V) ls ys m y : pk c = pst c -> Forall (fun l => Nat.divide (pst c) (length l)) ls ->
  Forall2 (fun l y => exists m, pool_call c (mkBatch (length l) [l] m) = Ok y) ls ys ->
  pool_call c (mkBatch (length (List.concat ls)) [List.concat ls] m) = Ok y ->
  bd y = [List.concat (map (fun y => List.concat (bd y)) ys)].
Proof.
  intros K D F H. apply pool_one in H as (S0 & o & -> & _ & P). f_equal. eapply pooled_unique; [exact S0|exact P|].
  apply pooled_concat; auto. clear - F. induction F as [|l y ls ys (m & H) F IH]; [constructor|]. constructor; [|exact IH].
  apply pool_one in H as (_ & o & -> & _ & P). cbn [List.concat]. now rewrite app_nil_r.
Qed.

Lemma pool_loses (c : pool_cfg V) a b m1 m2 m3 y1 y2 y : 2 * pst c <= pk c ->
  pool_call c (mkBatch (length a) [a] m1) = Ok y1 -> pool_call c (mkBatch (length b) [b] m2) = Ok y2 ->
  pool_call c (mkBatch (length (a ++ b)) [a ++ b] m3) = Ok y -> bw y1 + bw y2 < bw y.
Proof.
  intros K H1 H2 H3. pose proof (pool_call_inv c _ _ H1) as (_ & _ & W1 & _). pose proof (pool_call_inv c _ _ H2) as (_ & _ & W2 & _).
  apply pool_one in H1 as (S0 & o1 & _ & <- & P1). apply pool_one in H2 as (_ & o2 & _ & <- & P2). apply pool_one in H3 as (_ & o & _ & <- & P).
  exact (pooled_loses c a b o1 o2 o S0 K W1 W2 P1 P2 P).
Qed.

Lemma in_zip_right {A B} (l : list A) : forall (m : list B) b, length m = length l -> In b m -> exists a, In a l /\ In (a, b) (zip l m).
Proof.
  induction l as [|a l IH]; intros [|b0 m] b L H; cbn in L; try discriminate; [destruct H|].
  cbn. destruct H as [<-|H]; [exists a; auto|]. destruct (IH m b ltac:(lia) H) as (a' & H1 & H2). exists a'. auto.
Qed.

Lemma pool_unpad (c : pool_cfg V) (x y : batch V) h rs r : pool_call c x = Ok y -> 1 < pk c -> bm x = of_rows h rs -> length (bd x) = length rs ->
  In r rs -> rlen r = Z.of_nat (bw x) -> (Z.of_nat (bw y) < rlen r)%Z /\ forall l, unpad_sequence y <> Ok l.
Proof.
  intros H K M L Hr E. destruct (pool_meta c x y H K) as (W & My). split; [lia|]. intros l U. unfold unpad_sequence, unbind_rows in U.
  rewrite My, M, unbind_batch_rows in U. cbn [bind] in U. destruct (Nat.eqb _ _); [|discriminate]. cbn [bind] in U.
  pose proof (pool_call_inv c x y H) as (_ & _ & _ & _ & D & _).
  destruct (in_zip_right (bd y) (map (fun r => of_rows h [r]) rs) (of_rows h [r])) as (a & Ha & Hz).
  { rewrite D, !map_length. now symmetry. }
  { apply in_map_iff. eauto. }
  destruct (mapM_all _ _ _ U (mkSingle a (of_rows h [r]))) as (b & Hb).
  { apply in_map_iff. exists (a, of_rows h [r]). auto. }
  cbn [sm] in Hb. unfold the_length in Hb. cbn in Hb.
  rewrite D in Ha. apply in_map_iff in Ha as (r0 & <- & _).
  unfold narrow_single in Hb. cbn [sd] in Hb. unfold zlen, pool_row in Hb. rewrite map_length, seq_length in Hb.
  change (0 <? 0)%Z with false in Hb. cbv iota in Hb. change ((0 <? 0)%Z) with false in Hb.
  replace (Z.of_nat (bw y) <? 0)%Z with false in Hb by lia. cbn [orb] in Hb.
  replace (Z.of_nat (bw y) <? 0 + rlen r)%Z with true in Hb by lia. rewrite orb_true_r in Hb. discriminate.
Qed.
End PoolProofs.

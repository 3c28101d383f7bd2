(** gather and take_along_dim keep data and metadata in agreement. *)

From Coq Require Import String List ZArith Bool Lia Permutation.
From Coq Require Import ZifyBool.
From Verif Require Import Py Meta MetaSpec MetaProofs MetaLenProofs Named NamedSpec NamedProofs NamedSelProofs NamedIndexProofs
  NamedMetaProofs NamedGetProofs NamedOpsProofs NamedShapeProofs NamedSplitProofs NamedMoreProofs Gather GatherSpec GatherProofs GatherMoreProofs
  AlignSpec AlignProofs AlignOpProofs.
Import ListNotations.
Open Scope Z_scope.

Section AlignGather.
Context {V : Type}.
Context (real : V -> bool) (owner : V -> string) (time : V -> Z).
Notation aligned_at := (aligned_at real owner time).
Notation aligned := (aligned real owner time).
Implicit Types x y : @stensor V.

Lemma gather_dims f x bd ld c rs T d ix y : stream_ok x bd ld c rs T -> gather_with f x d (mkIx ix false) = Ok y ->
  exists k t', denotes (length (shp (tn x))) d k /\ k <> bd /\ k <> ld /\ f (tn x) k ix = Ok t'.
Proof.
  intros H E. destruct (gather_with_inv _ _ _ _ _ E) as (k & t' & Hd & Ef). exists k, t'. split; [exact Hd|].
  split; [|split; [|exact Ef]]; intros ->;
    [destruct (gather_with_refuses f x bd ld c rs T d bd (mkIx ix false) H Hd) as (e & E')
    |destruct (gather_with_refuses f x bd ld c rs T d ld (mkIx ix false) H Hd) as (e & E')]; auto; congruence.
Qed.

Lemma Forall2_at {A B} (R : A -> B -> Prop) l l' : Forall2 R l l' -> forall i b, nth_error l' i = Some b -> exists a, nth_error l i = Some a /\ R a b.
Proof. induction 1 as [|a b l l' H F IH]; intros [|i] b' E; cbn in *; try discriminate; [injection E as <-; eauto|eauto]. Qed.

Lemma firstn_some {A} k (l : list A) i a : nth_error (firstn k l) i = Some a -> nth_error l i = Some a.
Proof.
  revert k i. induction l as [|b l IH]; intros [|k] [|i] E; cbn in *; try discriminate; auto. eapply IH; eauto.
Qed.

Lemma gather_aligned x y bd ld c rs T d ix : aligned x -> stream_ok x bd ld c rs T ->
  (forall k, denotes (length (shp (tn x))) d k -> ix_fits k (shp (tn x)) ix) -> steady ld ix ->
  gather x d (mkIx ix false) = Ok y -> aligned y.
Proof.
  intros AL H HI Hst E. pose proof (aligned_any _ _ _ _ _ _ _ _ _ AL H) as A1.
  destruct (gather_dims _ _ _ _ _ _ _ _ _ _ H E) as (k & t' & Hd & Hkb & Hkl & Ef).
  pose proof (HI k Hd) as Hf. destruct Hf as [HR HS HE].
  pose proof (nth_error_Some_lt _ _ _ (so_bsize _ _ _ _ _ _ H)) as Lb. pose proof (nth_error_Some_lt _ _ _ (so_lsize _ _ _ _ _ _ H)) as Ll.
  destruct (nth_error (shp ix) bd) as [b|] eqn:Eb; [|apply nth_error_None in Eb; lia].
  destruct (nth_error (shp ix) ld) as [n|] eqn:En; [|apply nth_error_None in En; lia].
  destruct (HS _ _ _ Eb (so_bsize _ _ _ _ _ _ H)) as [B0 B1]. destruct (HS _ _ _ En (so_lsize _ _ _ _ _ _ H)) as [N0 N1].
  specialize (B1 ltac:(auto)). specialize (N1 ltac:(auto)).
  assert (Lt : length (shp t') = length (shp (tn x))).
  { destruct (torch_gather_ok (tn x) k ix) as (t2 & E2 & G2 & _); [apply Hd|exact (so_sizes _ _ _ _ _ _ H)|exact (HI k Hd)|]. rewrite Ef in E2. injection E2 as ->. now rewrite G2. }
  assert (Hg : n = T \/ firstn (Z.to_nat b) rs <> []).
  { destruct (Z.eq_dec n T) as [|Hne]; [auto|]. right. intros Hnil.
    destruct (gather_with_none torch_gather x bd ld c rs T d k ix b n t' H Hd Hkb Hkl Ef Lt Eb En B0 Hne Hnil) as (e & E').
    unfold gather in E. congruence. }
  destruct (gather_ok x bd ld c rs T d k ix b n H Hd Hkb Hkl (HI k Hd) Eb En Hg) as (y' & rs' & E' & N & [G1 G2] & M & F & _).
  rewrite E in E'. injection E' as <-.
  assert (Lrs : zlen rs' = b). { apply Forall2_len in F. rewrite firstn_length in F. unfold zlen in *. lia. }
  assert (SY : stream_ok y bd ld c rs' n).
  { constructor.
    - rewrite N, G1, HR. apply (so_rank _ _ _ _ _ _ H).
    - rewrite N. apply (so_distinct _ _ _ _ _ _ H).
    - rewrite G1. apply Forall_forall. intros m Hm. apply In_nth_error in Hm as (e & He).
      destruct (nth_error (shp (tn x)) e) as [n0|] eqn:E0; [|apply nth_error_None in E0; apply nth_error_Some_lt in He; lia].
      now destruct (HS e m n0 He E0).
    - rewrite N. apply (so_bname _ _ _ _ _ _ H).
    - rewrite N. apply (so_lname _ _ _ _ _ _ H).
    - now rewrite G1, Lrs.
    - now rewrite G1.
    - exact M.
    - unfold nonneg. apply Forall_forall. intros r Hr. apply In_nth_error in Hr as (i & Hi). destruct (Forall2_at _ _ _ F _ _ Hi) as (r0 & H0 & C0).
      apply firstn_some, nth_error_In in H0. pose proof (so_nonneg _ _ _ _ _ _ H) as Q. unfold nonneg in Q. rewrite Forall_forall in Q.
      specialize (Q _ H0). destruct C0 as (_ & _ & -> & _). lia.
    - apply Forall_forall. intros r Hr. apply In_nth_error in Hr as (i & Hi). destruct (Forall2_at _ _ _ F _ _ Hi) as (r0 & H0 & C0).
      destruct C0 as (_ & _ & -> & _). lia. }
  exists bd, ld, c, rs', n. apply (reindex real owner time x y bd ld bd ld c c rs rs' T n (fun i => i) (fun i => i) A1 SY).
  - exists (fun p => put k (at_ ix p) p). rewrite G1. split.
    + intros p Hp. pose proof Hp as Hp2. apply in_range_iff in Hp2 as [Lp Rp].
      assert (Hk : (k < length p)%nat) by (destruct Hd; lia).
      split; [now apply G2|]. split; [|split; [rewrite put_nth by exact Hk|rewrite put_nth by exact Hk]].
      * apply in_range_iff. split; [rewrite put_length by exact Hk; lia|]. intros e m Em. rewrite put_nth by exact Hk.
        destruct (Nat.eqb e k) eqn:Eek.
        -- assert (e = k) by lia. subst e. now apply HE.
        -- destruct (nth_error (shp ix) e) as [m'|] eqn:Em'; [|apply nth_error_None in Em'; apply nth_error_Some_lt in Em; lia].
           specialize (Rp e m' Em'). destruct (HS e m' m Em' Em) as [_ Q]. specialize (Q ltac:(lia)). lia.
      * replace (Nat.eqb bd k) with false by lia. reflexivity.
      * replace (Nat.eqb ld k) with false by lia. reflexivity.
    + intros p q Hp Hq Hs e He. pose proof Hp as Hp2. pose proof Hq as Hq2.
      apply in_range_iff in Hp2 as [Lp _]. apply in_range_iff in Hq2 as [Lq _].
      rewrite !put_nth by (destruct Hd; lia). destruct (Nat.eqb e k); [|now apply Hs]. now apply Hst.
  - intros; lia.
  - intros i r' Hi Hr'. destruct (Forall2_at _ _ _ F _ _ Hr') as (r & H0 & C0). apply firstn_some in H0.
    exists r. split; [exact H0|]. destruct C0 as (C1 & _ & C3 & _). split; [exact C1|]. intros t Ht. rewrite C3. lia.
Qed.

Lemma take_along_aligned x y bd ld c rs T d ix : aligned x -> stream_ok x bd ld c rs T ->
  (forall k, denotes (length (shp (tn x))) d k -> ix_broadcasts k (shp (tn x)) ix) -> steady ld ix ->
  nth_error (shp ix) bd = Some (zlen rs) -> nth_error (shp ix) ld = Some T ->
  take_along_dim x d (mkIx ix false) = Ok y -> aligned y.
Proof.
  intros AL H HI Hst Eb En E. pose proof (aligned_any _ _ _ _ _ _ _ _ _ AL H) as A1.
  destruct (gather_dims _ _ _ _ _ _ _ _ _ _ H E) as (k & t' & Hd & Hkb & Hkl & _).
  pose proof (HI k Hd) as Hf. destruct Hf as [HR HS HE].
  destruct (take_along_ok x bd ld c rs T d k ix H Hd Hkb Hkl (HI k Hd) Eb En) as (y' & E' & N & (G1 & G2 & G3) & M).
  rewrite E in E'. injection E' as <-.
  pose proof (so_sizes _ _ _ _ _ _ H) as Hs.
  assert (Sz : forall e n, nth_error (shp (tn x)) e = Some n -> exists m r, nth_error (shp ix) e = Some m /\ 0 <= m /\
     nth_error (shp (tn y)) e = Some r /\ (e = k -> r = m) /\ (e <> k -> bcast1 n m r)).
  { intros e n0 E0. destruct (nth_error (shp ix) e) as [m|] eqn:Em; [|apply nth_error_None in Em; apply nth_error_Some_lt in E0; lia].
    destruct (G2 e m n0 Em E0) as (r & Er & R1 & R2). exists m, r. destruct (HS e m n0 Em E0). auto. }
  assert (SY : stream_ok y bd ld c rs T).
  { constructor.
    - rewrite N, G1. apply (so_rank _ _ _ _ _ _ H).
    - rewrite N. apply (so_distinct _ _ _ _ _ _ H).
    - apply Forall_forall. intros m Hm. apply In_nth_error in Hm as (e & He).
      destruct (nth_error (shp (tn x)) e) as [n0|] eqn:E0; [|apply nth_error_None in E0; apply nth_error_Some_lt in He; lia].
      destruct (Sz e n0 E0) as (m' & r & _ & Hm' & Er & R1 & R2). rewrite He in Er. injection Er as ->.
      pose proof (Forall_nth_error _ _ _ _ Hs E0) as P0. cbn in P0.
      destruct (Nat.eq_dec e k) as [Hek|Hek]; [rewrite (R1 Hek); exact Hm'|]. destruct (R2 Hek); lia.
    - rewrite N. apply (so_bname _ _ _ _ _ _ H).
    - rewrite N. apply (so_lname _ _ _ _ _ _ H).
    - destruct (Sz _ _ (so_bsize _ _ _ _ _ _ H)) as (m & r & Em & _ & Er & _ & R2). rewrite Eb in Em. injection Em as <-.
      rewrite Er. f_equal. specialize (R2 ltac:(auto)). inversion R2; subst; congruence.
    - destruct (Sz _ _ (so_lsize _ _ _ _ _ _ H)) as (m & r & Em & _ & Er & _ & R2). rewrite En in Em. injection Em as <-.
      rewrite Er. f_equal. specialize (R2 ltac:(auto)). inversion R2; subst; congruence.
    - rewrite M. apply (so_meta _ _ _ _ _ _ H).
    - apply (so_nonneg _ _ _ _ _ _ H).
    - apply (so_fit _ _ _ _ _ _ H). }
  assert (SeenX : forall p, in_range (shp (tn y)) p -> forall e n0, nth_error (shp (tn x)) e = Some n0 -> e <> k ->
     nth e (seen_at (shp (tn x)) p) 0 = (if n0 =? 1 then 0 else nth e p 0) /\ 0 <= nth e (seen_at (shp (tn x)) p) 0 < n0).
  { intros p Hp e n0 E0 Hek. apply in_range_iff in Hp as [Lp Rp]. rewrite (seen_at_nth (shp (tn x)) p e n0) by (exact E0 || lia).
    split; [reflexivity|]. destruct (Sz e n0 E0) as (m & r & Em & Hm & Er & _ & R2). specialize (R2 Hek). specialize (Rp e r Er).
    destruct (n0 =? 1) eqn:E1; [lia|]. inversion R2; subst; lia. }
  assert (SeenI : forall p, in_range (shp (tn y)) p -> in_range (shp ix) (seen_at (shp ix) p)).
  { intros p Hp. apply in_range_iff in Hp as [Lp Rp]. apply in_range_iff. split; [rewrite seen_at_len by lia; lia|].
    intros e m Em. rewrite (seen_at_nth (shp ix) p e m) by (exact Em || lia).
    destruct (nth_error (shp (tn x)) e) as [n0|] eqn:E0; [|apply nth_error_None in E0; apply nth_error_Some_lt in Em; lia].
    destruct (Sz e n0 E0) as (m' & r & Em' & Hm & Er & R1 & R2). rewrite Em in Em'. injection Em' as <-. specialize (Rp e r Er).
    destruct (m =? 1) eqn:E1; [lia|]. destruct (Nat.eq_dec e k) as [Hek|Hek]; [rewrite (R1 Hek) in Rp; exact Rp|].
    specialize (R2 Hek). inversion R2; subst; lia. }
  pose proof (so_bsize _ _ _ _ _ _ H) as SB. pose proof (so_lsize _ _ _ _ _ _ H) as SL.
  apply (relayout real owner time x y bd ld bd ld c rs T A1 SY).
  exists (fun p => put k (at_ ix (seen_at (shp ix) p)) (seen_at (shp (tn x)) p)). split.
  - intros p Hp. pose proof Hp as Hp2. apply in_range_iff in Hp2 as [Lp Rp].
    assert (Ls : length (seen_at (shp (tn x)) p) = length (shp (tn x))) by (apply seen_at_len; lia).
    assert (Hk : (k < length (seen_at (shp (tn x)) p))%nat) by (destruct Hd; lia).
    split; [now apply G3|]. split; [|split].
    + apply in_range_iff. split; [rewrite put_length by exact Hk; lia|]. intros e m Em. rewrite put_nth by exact Hk.
      destruct (Nat.eqb e k) eqn:Eek.
      * assert (e = k) by lia. subst e. apply HE; [now apply SeenI|exact Em].
      * now apply (SeenX p Hp e m Em); lia.
    + rewrite put_nth by exact Hk. replace (Nat.eqb bd k) with false by lia.
      destruct (SeenX p Hp bd _ SB ltac:(auto)) as [-> _]. pose proof (in_range_nth _ _ _ _ Hp (so_bsize _ _ _ _ _ _ SY)). destruct (zlen rs =? 1) eqn:E1; lia.
    + rewrite put_nth by exact Hk. replace (Nat.eqb ld k) with false by lia.
      destruct (SeenX p Hp ld _ SL ltac:(auto)) as [-> _]. pose proof (in_range_nth _ _ _ _ Hp (so_lsize _ _ _ _ _ _ SY)). destruct (T =? 1) eqn:E1; lia.
  - intros p q Hp Hq Hpq e He. pose proof Hp as Hp2. pose proof Hq as Hq2.
    apply in_range_iff in Hp2 as [Lp _]. apply in_range_iff in Hq2 as [Lq _].
    assert (SB2 : forall s p q, length s = length p -> length s = length q -> same_but_time ld p q -> same_but_time ld (seen_at s p) (seen_at s q)).
    { intros s p' q' L1 L2 Hs' e' He'. destruct (nth_error s e') as [n0|] eqn:E0.
      - rewrite !(seen_at_nth s _ e' n0) by assumption. now rewrite (Hs' e' He').
      - apply nth_error_None in E0. rewrite !nth_overflow by (rewrite seen_at_len; assumption). reflexivity. }
    rewrite !put_nth by (rewrite seen_at_len by lia; destruct Hd; lia).
    destruct (Nat.eqb e k) eqn:Eek.
    + apply Hst; [now apply SeenI|now apply SeenI|]. apply SB2; auto; lia.
    + apply (SB2 (shp (tn x)) p q); auto; lia.
Qed.

End AlignGather.

(** Proofs about MultiStreamDataLoader with drop_last. *)

From Coq Require Import String List ZArith Bool Lia Permutation Sorted.
From Coq Require Import ZifyBool.
From Verif Require Import Py Meta MetaSpec MetaProofs Pad Data DataSpec DataProofs PartitionProofs DataDropProofs SyncProofs LoaderProofs.
Import ListNotations.
Open Scope nat_scope.

Section LoaderDrop.
Context {V : Type}.
Implicit Types (w : world V) (d : dataset) (f : string) (S : string -> list (sample V)).

(** The batches of one worker that drops the last ones. *)
Definition drop_run S d (n : nat) (bss : list (list (sample V))) : Prop :=
  bss <> [] /\ Forall (fun b => length b = n /\ NoDup (map sid b)) bss /\
  (forall f, of_file f (List.concat bss) = [] \/ In f (dfiles d) /\ ended_prefix (of_file f (List.concat bss)) (S f)).

Lemma of_file_self (l : list (sample V)) s : In s l -> In s (of_file (sid s) l).
Proof. intros H. apply filter_In. split; [auto|apply String.eqb_refl]. Qed.

Lemma drop_run_ids S d n bss s : drop_run S d n bss -> In s (List.concat bss) -> In (sid s) (dfiles d).
Proof.
  intros (_ & _ & H) Hs. apply of_file_self in Hs. destruct (H (sid s)) as [E|[E _]]; [rewrite E in Hs; destruct Hs|auto].
Qed.

Lemma drop_runs w S n : forall ds shuffles,
  Forall (fun d => dbatch d = Some n /\ ddrop d = true /\ (n <= zlen (dfiles d))%Z) ds -> (0 < n)%Z ->
  Forall2 (@Permutation string) shuffles (map dfiles ds) -> NoDup (List.concat (map dfiles ds)) ->
  (forall d f, In d ds -> In f (dfiles d) -> yields (process_data w d f) (S f) /\ complete_file (S f)) ->
  exists runs, map (fun p => get_streams w (fst p) (snd p)) (zip ds shuffles) = map gen_of runs /\
    Forall2 (fun d bss => drop_run S d (Z.to_nat n) bss) ds runs.
Proof.
  induction ds as [|d ds IH]; intros shuffles Hd Hn0 Hs Hn HS.
  - exists []. split; [reflexivity|constructor].
  - inversion Hd as [|? ? (H1 & H2 & H3) Hd']; subst. cbn [map] in Hs, Hn. inversion Hs as [|sh ? shs ? Hp Hs']; subst.
    cbn [List.concat] in Hn.
    pose proof (NoDup_app_remove_r _ _ Hn) as N1. pose proof (NoDup_app_remove_l _ _ Hn) as N2.
    destruct (dataset_drop w d sh S n H1 Hn0 H2 N1 Hp) as (bss & B1 & B2 & B3 & B4 & _);
      [intros f Hf; apply HS; [left|]; auto|intros f Hf; apply (HS d); [left|]; auto|auto|].
    destruct (IH shs Hd' Hn0 Hs' N2) as (runs & R1 & R2); [intros x f Hx; apply HS; right; auto|].
    exists (bss :: runs). cbn [zip map fst snd]. split; [rewrite R1; f_equal; exact B1|]. constructor; [|auto]. split; [auto|split; auto].
Qed.

Lemma concat_in_nth {A} (l : list (list A)) k b x : nth_error l k = Some b -> In x b -> In x (List.concat l).
Proof. intros H Hx. apply in_concat. exists b. split; [eapply nth_error_In; eauto|auto]. Qed.

(** What one file gets from the merged batches: the same as from the first batches of its own worker. *)
Lemma merged_file f (runs : list (list (list (sample V)))) j r : nth_error runs j = Some r ->
  (forall i t y, nth_error runs i = Some t -> i <> j -> In y (List.concat t) -> sid y <> f) ->
  forall k, k <= length (zips runs) ->
  of_file f (List.concat (map (@List.concat _) (firstn k (zips runs)))) = of_file f (List.concat (firstn k r)).
Proof.
  intros Hj Hother. induction k as [|k IH]; intros Hk; [reflexivity|].
  destruct (nth_error (zips runs) k) as [b|] eqn:Eb; [|apply nth_error_None in Eb; lia].
  pose proof (zips_nth runs k b Eb) as Hf.
  assert (Hx : exists x, nth_error r k = Some x /\ of_file f (List.concat b) = of_file f x).
  { clear IH Eb Hk. revert j Hj Hother. induction Hf as [|t x runs b Ht Hf IH]; intros j Hj Hother; [destruct j; discriminate|].
    cbn [List.concat]. rewrite of_file_app. destruct j as [|j]; cbn [nth_error] in Hj.
    - injection Hj as ->. exists x. split; [auto|].
      assert (E : of_file f (List.concat b) = []); [|now rewrite E, app_nil_r].
      apply filter_none. intros y Hy. apply String.eqb_neq. apply in_concat in Hy as (c & Hc & Hy). apply In_nth_error in Hc as (i & Hi).
      assert (G : exists t0, nth_error runs i = Some t0 /\ nth_error t0 k = Some c).
      { clear -Hf Hi. revert i Hi. induction Hf as [|? ? ? ? Hxx ? IHf]; intros [|i] Hi; cbn in *; try discriminate; [injection Hi as <-; eauto|eauto]. }
      destruct G as (t0 & G1 & G2). apply (Hother (Datatypes.S i) t0 y); [exact G1|lia|]. eapply concat_in_nth; eauto.
    - destruct (IH j Hj) as (x0 & E1 & E2). { intros i t0 y Hi Hne Hy. apply (Hother (Datatypes.S i) t0 y); auto. }
      exists x0. split; [auto|]. rewrite E2.
      assert (E : of_file f x = []); [|now rewrite E].
      apply filter_none. intros y Hy. apply String.eqb_neq. apply (Hother 0 t y); auto. eapply concat_in_nth; eauto. }
  destruct Hx as (x & Hx & E). rewrite (firstn_S_nth k _ b Eb), (firstn_S_nth k r x Hx), map_app, !concat_app, !of_file_app, IH by lia.
  cbn [map List.concat]. rewrite !app_nil_r. now rewrite E.
Qed.

Lemma prefix_of_ended (p q full : list (sample V)) : ended_prefix (p ++ q) full ->
  (exists n, p = firstn n full) \/ ended_prefix p full.
Proof.
  intros (n & s & Hs & E). destruct q as [|x q].
  - right. rewrite app_nil_r in E. exists n, s. auto.
  - left. exists (length p).
    assert (L : length p <= n).
    { apply (f_equal (@length _)) in E. rewrite !app_length in E. cbn [length] in E. rewrite firstn_length in E.
      assert (n < length full) by (apply nth_error_Some; congruence). lia. }
    apply (f_equal (firstn (length p))) in E.
    rewrite firstn_app, Nat.sub_diag, firstn_O, app_nil_r, firstn_all in E.
    rewrite firstn_app, firstn_firstn, firstn_length in E.
    assert (n < length full) by (apply nth_error_Some; congruence).
    rewrite !Nat.min_l in E by lia. replace (length p - n) with 0 in E by lia. rewrite firstn_O, app_nil_r in E. exact E.
Qed.

Lemma runs_len {A} (P : dataset -> A -> Prop) ds runs : Forall2 P ds runs -> length runs = length ds.
Proof. induction 1; cbn; auto. Qed.

Lemma runs_nth {A} (P : dataset -> A -> Prop) ds runs : Forall2 P ds runs -> forall i r, nth_error runs i = Some r ->
  exists d, nth_error ds i = Some d /\ P d r.
Proof. induction 1; intros [|i] r Hi; cbn in *; try discriminate; [injection Hi as <-; eauto|eauto]. Qed.

Lemma file_lists_disjoint (ds : list dataset) : NoDup (List.concat (map dfiles ds)) -> forall i j a b f,
  nth_error ds i = Some a -> nth_error ds j = Some b -> In f (dfiles a) -> In f (dfiles b) -> i = j.
Proof.
  induction ds as [|d ds IH]; intros Hn i j a b f Hi Hj Ha Hb; [destruct i; discriminate|].
  cbn [map List.concat] in Hn.
  assert (X : forall k c, nth_error ds k = Some c -> In f (dfiles c) -> In f (dfiles d) -> False).
  { intros k c Hk Hc Hd0. assert (G : In f (List.concat (map dfiles ds))).
    { apply in_concat. exists (dfiles c). split; [apply in_map; eapply nth_error_In; eauto|auto]. }
    clear -Hn G Hd0. induction (dfiles d) as [|x l IHl]; [destruct Hd0|]. cbn [app] in Hn. apply NoDup_cons_iff in Hn as [N1 N2].
    destruct Hd0 as [->|Hd0]; [apply N1, in_or_app; auto|auto]. }
  destruct i as [|i], j as [|j]; cbn [nth_error] in *; auto.
  - injection Hi as ->. exfalso. eapply X; eauto.
  - injection Hj as ->. exfalso. eapply X; eauto.
  - f_equal. eapply IH; eauto. eapply NoDup_app_remove_l; eauto.
Qed.

Theorem loader_drop_spec w d bs sh nw ld S order : new_loader (inl d) bs sh nw true true = Ok ld ->
  (0 < bs)%Z -> (bs mod (Z.max 1 nw) = 0)%Z -> splittable w d -> NoDup (dfiles d) ->
  Permutation order (seq 0 (length (dfiles d))) ->
  (forall f, In f (dfiles d) -> yields (process_data w d f) (S f) /\ complete_file (S f)) ->
  exists ds, loader_datasets w ld order = Ok ds /\ length ds = Z.to_nat (Z.max 1 nw) /\ Permutation (List.concat (map dfiles ds)) (dfiles d) /\
  forall shuffles, Forall2 (@Permutation string) shuffles (map dfiles ds) ->
  Forall (fun e => (bs / Z.max 1 nw <= zlen (dfiles e))%Z) ds ->
  exists out, (forall fuel, loader_batches fuel w ld order shuffles = Some (gen_of out)) /\ out <> [] /\
    Forall (fun b => length b = Z.to_nat bs /\ NoDup (map sid b)) out /\
    (forall f, (exists n, of_file f (List.concat out) = firstn n (S f)) \/ ended_prefix (of_file f (List.concat out)) (S f)) /\
    (forall s, In s (List.concat out) -> In (sid s) (dfiles d)) /\
    (exists e, In e ds /\ forall f, In f (dfiles e) ->
       of_file f (List.concat out) = [] \/ ended_prefix (of_file f (List.concat out)) (S f)).
Proof.
  intros Hld Hbs Hmod Hsp Hnd Hperm HS.
  assert (El : ld = mkLoader (inl d) bs sh nw true true) by (unfold new_loader in Hld; cbn [andb negb] in Hld; congruence). subst ld. clear Hld.
  destruct (split_spec w d (Z.max 1 nw) bs sh true order 0%Z ltac:(lia) Hmod Hbs Hsp Hperm) as (ds & D1 & D2 & D3 & D4 & _).
  exists ds. split; [exact D1|]. split; [auto|]. split; [auto|]. intros shuffles Hs Hen.
  set (per := (bs / Z.max 1 nw)%Z) in *.
  assert (Hper : (0 < per)%Z /\ (per * Z.max 1 nw = bs)%Z).
  { pose proof (Z.div_mod bs (Z.max 1 nw) ltac:(lia)) as Q. fold per in Q. rewrite Hmod in Q. nia. }
  assert (Hnc : NoDup (List.concat (map dfiles ds))) by (eapply Permutation_NoDup; [apply Permutation_sym; exact D3|auto]).
  destruct (drop_runs w S per ds shuffles) as (runs & R1 & R2); auto.
  { apply Forall_forall. intros e He. rewrite Forall_forall in D4, Hen. destruct (D4 e He) as (_ & _ & _ & H1 & _ & H2). split; [auto|split; [auto|apply Hen; auto]]. }
  { lia. }
  { intros x f Hx Hf. rewrite Forall_forall in D4. destruct (D4 x Hx) as (_ & H1 & H2 & _). rewrite (process_same w x d f H1 H2).
    apply HS. eapply Permutation_in; [exact D3|]. apply in_concat. exists (dfiles x). split; [now apply in_map|auto]. }
  set (out := map (@List.concat _) (zips runs)).
  assert (RL : length runs = length ds) by (eapply runs_len; eauto).
  assert (Rne : runs <> []). { intros ->. cbn in RL. lia. }
  assert (OTH : forall f i j t y e, In f (dfiles e) -> nth_error ds j = Some e -> nth_error runs i = Some t -> i <> j ->
            In y (List.concat t) -> sid y <> f).
  { intros f i j t y e Hf He Ht Hij Hy E. destruct (runs_nth _ _ _ R2 i t Ht) as (e' & He' & W).
    apply (drop_run_ids _ _ _ _ _ W) in Hy. rewrite E in Hy. apply Hij. eapply file_lists_disjoint; eauto. }
  assert (OUT : firstn (length (zips runs)) (zips runs) = zips runs) by apply firstn_all.
  assert (FILE : forall f j r e, nth_error runs j = Some r -> nth_error ds j = Some e -> In f (dfiles e) ->
            of_file f (List.concat out) = of_file f (List.concat (firstn (length (zips runs)) r))).
  { intros f j r e Hr He Hf. unfold out. rewrite <- OUT at 1.
    apply (merged_file f runs j r Hr); [|lia]. intros i t y Ht Hij Hy. eapply OTH; eauto. }
  assert (PRE : forall f j r e, nth_error runs j = Some r -> nth_error ds j = Some e -> drop_run S e (Z.to_nat per) r -> In f (dfiles e) ->
            exists q, of_file f (List.concat r) = of_file f (List.concat out) ++ q /\
              (length r = length (zips runs) -> of_file f (List.concat r) = of_file f (List.concat out))).
  { intros f j r e Hr He W Hf. rewrite (FILE f j r e Hr He Hf).
    exists (of_file f (List.concat (skipn (length (zips runs)) r))). split.
    - rewrite <- of_file_app, <- concat_app, firstn_skipn. reflexivity.
    - intros <-. now rewrite firstn_all. }
  assert (SIDS : forall s, In s (List.concat out) -> exists j r e, nth_error runs j = Some r /\ nth_error ds j = Some e /\ In (sid s) (dfiles e) /\
            drop_run S e (Z.to_nat per) r).
  { intros s Hx. unfold out in Hx. apply in_concat in Hx as (b & Hb & Hx). apply in_map_iff in Hb as (b0 & <- & Hb0).
    apply In_nth_error in Hb0 as (k & Hk). pose proof (zips_nth runs k b0 Hk) as Hf.
    apply in_concat in Hx as (c & Hc & Hx). apply In_nth_error in Hc as (j & Hj).
    assert (G : exists t0, nth_error runs j = Some t0 /\ nth_error t0 k = Some c).
    { clear -Hf Hj. revert j Hj. induction Hf as [|? ? ? ? Hxx ? IHf]; intros [|i] Hi; cbn in *; try discriminate; [injection Hi as <-; eauto|eauto]. }
    destruct G as (r & G1 & G2). destruct (runs_nth _ _ _ R2 j r G1) as (e & He & W). exists j, r, e. split; [auto|]. split; [auto|].
    split; [|auto]. eapply drop_run_ids; [exact W|]. eapply concat_in_nth; eauto. }
  exists out. split; [|split; [|split; [|split; [|split]]]].
  - intros fuel. unfold loader_batches. change (loader_datasets w (mkLoader (inl d) bs sh nw true true) order) with (split w d (Z.max 1 nw) bs sh true order). rewrite D1. cbn [loverlap ldrop]. unfold merged. rewrite R1, zip_gens_of, gmap_of. reflexivity.
  - assert (L0 : 0 < length (zips runs)).
    { apply zips_len; auto. apply Forall_forall. intros r Hr. apply In_nth_error in Hr as (i & Hi).
      destruct (runs_nth _ _ _ R2 i r Hi) as (e & _ & W & _). destruct r; [congruence|cbn; lia]. }
    unfold out. destruct (zips runs); [cbn in L0; lia|discriminate].
  - apply Forall_forall. intros b Hb. unfold out in Hb. apply in_map_iff in Hb as (b0 & <- & Hb0). apply In_nth_error in Hb0 as (k & Hk).
    pose proof (zips_nth runs k b0 Hk) as Hf. 
    assert (G : forall ds0 runs0 b1, Forall2 (fun d bss => drop_run S d (Z.to_nat per) bss) ds0 runs0 ->
              Forall2 (fun s x => nth_error s k = Some x) runs0 b1 -> NoDup (List.concat (map dfiles ds0)) ->
              length (List.concat b1) = length ds0 * Z.to_nat per /\ NoDup (map sid (List.concat b1)) /\
              (forall y, In y (List.concat b1) -> In (sid y) (List.concat (map dfiles ds0)))).
    { clear. intros ds0 runs0 b1 H. revert b1. induction H as [|e r ds0 runs0 W H IH]; intros b1 Hf Hn; inversion Hf as [|? x ? b2 Hx Hf']; subst.
      - cbn. repeat split; [constructor|intros y []].
      - cbn [map List.concat length] in *. destruct (IH b2 Hf' (NoDup_app_remove_l _ _ Hn)) as (I1 & I2 & I3).
        pose proof W as (_ & W2 & _). rewrite Forall_forall in W2. destruct (W2 x (nth_error_In _ _ Hx)) as [W3 W4].
        split; [rewrite app_length; lia|]. split.
        + rewrite map_app. apply NoDup_app_disj; auto. intros q Hq1 Hq2.
          apply in_map_iff in Hq1 as (y & Ey & Hy). apply in_map_iff in Hq2 as (z & Ez & Hz).
          assert (G1 : In q (dfiles e)). { rewrite <- Ey. eapply drop_run_ids; [exact W|]. eapply concat_in_nth; eauto. }
          assert (G2 : In q (List.concat (map dfiles ds0))) by (rewrite <- Ez; auto).
          clear -Hn G1 G2. induction (dfiles e) as [|a l IHl]; [destruct G1|]. cbn [app] in Hn. apply NoDup_cons_iff in Hn as [N1 N2].
          destruct G1 as [->|G1]; [apply N1, in_or_app; auto|auto].
        + intros y Hy. apply in_or_app. apply in_app_or in Hy as [Hy|Hy]; [left|right; auto].
          eapply drop_run_ids; [exact W|]. eapply concat_in_nth; eauto. }
    destruct (G ds runs b0 R2 Hf Hnc) as (G1 & G2 & _). split; [|auto]. rewrite G1, D2. nia.
  - intros f. destruct (of_file f (List.concat out)) as [|s0 l] eqn:E.
    { left. exists 0. reflexivity. }
    assert (Hs0 : In s0 (of_file f (List.concat out))) by (rewrite E; left; auto).
    apply filter_In in Hs0 as [Hs0 Ef]. apply String.eqb_eq in Ef. destruct (SIDS s0 Hs0) as (j & r & e & Hr & He & Hf & W). rewrite Ef in Hf.
    destruct (PRE f j r e Hr He W Hf) as (q & Q & _). destruct W as (_ & _ & W). rewrite E in Q.
    destruct (W f) as [W1|[_ W1]]; rewrite Q in W1; [discriminate|]. now apply prefix_of_ended in W1.
  - intros s Hx. destruct (SIDS s Hx) as (j & r & e & Hr & He & Hf & _). eapply Permutation_in; [exact D3|].
    apply in_concat. exists (dfiles e). split; [apply in_map; eapply nth_error_In; eauto|auto].
  - destruct (zips_shortest runs Rne) as (r & Hr & Hl). apply In_nth_error in Hr as (j & Hj).
    destruct (runs_nth _ _ _ R2 j r Hj) as (e & He & W). exists e. split; [eapply nth_error_In; eauto|]. intros f Hf.
    destruct (PRE f j r e Hj He W Hf) as (q & _ & Q). specialize (Q Hl). destruct W as (_ & _ & W). rewrite <- Q.
    destruct (W f) as [W1|[_ W1]]; auto.
Qed.

End LoaderDrop.

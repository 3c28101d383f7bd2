(** Proofs about MultiStreamDataLoader. *)

From Coq Require Import String List ZArith Bool Lia Permutation Sorted.
From Coq Require Import ZifyBool.
From Verif Require Import Py Meta MetaSpec MetaProofs Pad Data DataSpec DataProofs PartitionProofs SyncProofs.
Import ListNotations.
Open Scope nat_scope.

Lemma NoDup_app_remove_r {A} (l1 l2 : list A) : NoDup (l1 ++ l2) -> NoDup l1.
Proof. induction l1 as [|a l1 IH]; cbn [app]; intros H; [constructor|]. apply NoDup_cons_iff in H as [H1 H2]. constructor; [|auto]. intros G. apply H1, in_or_app. auto. Qed.

Lemma NoDup_app_remove_l {A} (l1 l2 : list A) : NoDup (l1 ++ l2) -> NoDup l2.
Proof. induction l1 as [|a l1 IH]; cbn [app]; intros H; [auto|]. apply NoDup_cons_iff in H as [H1 H2]. auto. Qed.

Section Loader.
Context {V : Type}.
Implicit Types (w : world V) (d : dataset) (f : string) (S : string -> list (sample V)).

(** The batches of one worker. *)
Definition worker_run S d (n : nat) (bss : list (list (sample V))) : Prop :=
  Forall (fun b => 1 <= length b <= n /\ NoDup (map sid b)) bss /\
  (forall f, In f (dfiles d) -> of_file f (List.concat bss) = S f) /\
  (forall s, In s (List.concat bss) -> In (sid s) (dfiles d)) /\
  ((forall f, In f (dfiles d) -> complete_file (S f)) ->
   Forall (fun s => ssos s = true) (hd [] bss) /\ length (hd [] bss) = Nat.min n (length (dfiles d))).

(** The number of files the first batch starts. *)
Definition first_size (ds : list dataset) (ns : list Z) : nat :=
  list_sum (map (fun dn => Nat.min (Z.to_nat (snd dn)) (length (dfiles (fst dn)))) (zip ds ns)).

Lemma workers_run w S : forall ds shuffles ns,
  Forall2 (fun d n => dbatch d = Some n /\ (0 < n)%Z /\ ddrop d = false) ds ns ->
  Forall2 (@Permutation string) shuffles (map dfiles ds) -> NoDup (List.concat (map dfiles ds)) ->
  (forall d f, In d ds -> In f (dfiles d) -> yields (process_data w d f) (S f)) ->
  exists runs, map (fun p => get_streams w (fst p) (snd p)) (zip ds shuffles) = map gen_of runs /\
    Forall2 (fun dn bss => worker_run S (fst dn) (Z.to_nat (snd dn)) bss) (zip ds ns) runs /\ length runs = length ds.
Proof.
  induction ds as [|d ds IH]; intros shuffles ns Hd Hs Hn HS.
  - exists []. inversion Hd; subst. cbn [zip map length]. split; [reflexivity|]. split; [constructor|reflexivity].
  - inversion Hd as [|? n ? ns' (H1 & H2 & H3) Hd']; subst. cbn [map] in Hs, Hn. inversion Hs as [|sh ? shs ? Hp Hs']; subst.
    cbn [List.concat] in Hn.
    assert (N1 : NoDup (dfiles d) /\ NoDup (List.concat (map dfiles ds))).
    { split; [eapply NoDup_app_remove_r; eauto|eapply NoDup_app_remove_l; eauto]. }
    destruct N1 as [N1 N2].
    destruct (dataset_iter w d sh S n H1 H2 H3 N1 Hp) as (bss & B1 & B2); [intros f Hf; apply HS; [left|]; auto|].
    destruct (IH shs ns' Hd' Hs' N2) as (runs & R1 & R2 & R3); [intros x f Hx; apply HS; right; auto|].
    exists (bss :: runs). cbn [zip map length fst snd]. split; [rewrite R1; f_equal; exact B1|]. split; [constructor; auto|lia].
Qed.

Lemma runs_disjoint S : forall ds ns runs, Forall2 (fun dn bss => worker_run S (fst dn) (Z.to_nat (snd dn)) bss) (zip ds ns) runs ->
  length ns = length ds -> NoDup (List.concat (map dfiles ds)) -> disjoint_ids runs.
Proof.
  assert (Hin : forall ds ns runs t x, Forall2 (fun dn bss => worker_run S (fst dn) (Z.to_nat (snd dn)) bss) (zip ds ns) runs ->
            In t runs -> In x (List.concat t) -> In (sid x) (List.concat (map dfiles ds))).
  { induction ds as [|d ds IH]; intros [|n ns] runs t x H Ht Hx; cbn [zip] in H; inversion H as [|? bss ? runs' Hw Hr]; subst; try (destruct Ht).
    - subst. cbn [map List.concat]. apply in_or_app. left. apply Hw. auto.
    - cbn [map List.concat]. apply in_or_app. right. eapply IH; eauto. }
  induction ds as [|d ds IH]; intros [|n ns] runs H Hl Hn; cbn [zip length] in *; try discriminate; inversion H as [|? bss ? runs' Hw Hr]; subst; constructor.
  - apply Forall_forall. intros t Ht x y Hx Hy E. assert (G1 : In (sid x) (dfiles d)) by (apply Hw; auto).
    assert (G2 : In (sid y) (List.concat (map dfiles ds))) by (eapply Hin; eauto). cbn [map List.concat] in Hn. rewrite <- E in G2.
    clear - Hn G1 G2. induction (dfiles d) as [|a l IH]; [destruct G1|]. cbn [app] in Hn. apply NoDup_cons_iff in Hn as [N1 N2].
    destruct G1 as [->|G1]; [apply N1, in_or_app; auto|auto].
  - apply (IH ns); [exact Hr|lia|]. cbn [map List.concat] in Hn. eapply NoDup_app_remove_l; eauto.
Qed.

Lemma runs_bounds S : forall ds ns runs, Forall2 (fun dn bss => worker_run S (fst dn) (Z.to_nat (snd dn)) bss) (zip ds ns) runs ->
  length ns = length ds -> Forall2 (fun n s => Forall (fun b : list (sample V) => 1 <= length b <= n /\ NoDup (map sid b)) s) (map Z.to_nat ns) runs.
Proof.
  induction ds as [|d ds IH]; intros [|n ns] runs H Hl; cbn [zip length] in *; try discriminate; inversion H as [|? bss ? runs' Hw Hr]; subst; constructor.
  - apply Hw.
  - apply IH; auto.
Qed.

Theorem merged_spec w S ds shuffles ns :
  Forall2 (fun d n => dbatch d = Some n /\ (0 < n)%Z /\ ddrop d = false) ds ns ->
  Forall2 (@Permutation string) shuffles (map dfiles ds) -> NoDup (List.concat (map dfiles ds)) ->
  (forall d f, In d ds -> In f (dfiles d) -> yields (process_data w d f) (S f)) ->
  exists bss, yields (merged w ds false shuffles) bss /\
    Forall (fun b => 1 <= length b <= list_sum (map Z.to_nat ns) /\ NoDup (map sid b)) bss /\
    (forall f, In f (List.concat (map dfiles ds)) -> of_file f (List.concat bss) = S f) /\
    (forall s, In s (List.concat bss) -> In (sid s) (List.concat (map dfiles ds))) /\
    ((forall f, In f (List.concat (map dfiles ds)) -> complete_file (S f)) ->
     Forall (fun s => ssos s = true) (hd [] bss) /\ length (hd [] bss) = first_size ds ns).
Proof.
  intros Hd Hs Hn HS. destruct (workers_run w S ds shuffles ns Hd Hs Hn HS) as (runs & R1 & R2 & R3).
  assert (Hl : length ns = length ds) by (clear - Hd; induction Hd; simpl; auto).
  pose proof (runs_disjoint S ds ns runs R2 Hl Hn) as Hdis.
  exists (rounds runs). split; [|split; [|split; [|split]]].
  - unfold yields, merged. rewrite R1. apply zip_longest_rounds.
  - apply rounds_batches; auto. eapply runs_bounds; eauto.
  - intros f Hf. destruct (rounds_of_file f runs Hdis) as [Q1 Q2].
    assert (Hz : exists d n, In f (dfiles d) /\ In (d, n) (zip ds ns)).
    { clear - Hf Hl. revert ns Hl. induction ds as [|d ds IH]; intros [|n ns] Hl; cbn [map List.concat zip length] in *; try discriminate; [destruct Hf|].
      apply in_app_or in Hf as [Hf|Hf]; [exists d, n; split; [auto|left; auto]|]. destruct (IH Hf ns ltac:(lia)) as (d' & n' & ? & ?). exists d', n'. split; [auto|right; auto]. }
    destruct Hz as (d & n & Hf2 & Hz).
    assert (Hrun : exists bss, In bss runs /\ worker_run S d (Z.to_nat n) bss).
    { clear - R2 Hz. induction R2 as [|? bss ? runs Hw Hr IH]; [destruct Hz|]. destruct Hz as [->|Hz]; [exists bss; split; [left; auto|auto]|].
      destruct (IH Hz) as (b & ? & ?). exists b. split; [right; auto|auto]. }
    destruct Hrun as (bss & Hin & Hw). pose proof (proj1 (proj2 Hw) f Hf2) as E.
    destruct (Q1 bss Hin) as [G|G]; [rewrite G; auto|]. rewrite E in G. rewrite G. apply Q2. intros t Ht.
    destruct (Q1 t Ht) as [G2|G2]; [|auto]. 
    (* another run holds the same file only if it is empty *)
    assert (Hall : exists d2 n2, worker_run S d2 (Z.to_nat n2) t).
    { clear - R2 Ht. induction R2 as [|dn b l runs Hw Hr IH]; [destruct Ht|]. destruct Ht as [->|Ht]; [exists (fst dn), (snd dn); auto|auto]. }
    destruct Hall as (d2 & n2 & Hw2). destruct (of_file f (List.concat t)) as [|x q] eqn:Ex; auto. exfalso.
    assert (Hx : In x (of_file f (List.concat t))) by (rewrite Ex; left; auto). apply filter_In in Hx as [Hx Hx2]. apply String.eqb_eq in Hx2.
    destruct (in_dec String.string_dec f (dfiles d2)) as [Hf3|Hf3].
    + pose proof (proj1 (proj2 Hw2) f Hf3) as E2. rewrite E2, G in Ex. discriminate.
    + apply Hf3. rewrite <- Hx2. apply Hw2. auto.
  - intros s Hx. apply rounds_in in Hx as (t & Ht & Hx).
    clear - R2 Ht Hx. revert ns runs R2 Ht. induction ds as [|d ds IH]; intros [|n ns] runs R2 Ht; cbn [zip] in R2; inversion R2 as [|? bss ? runs' Hw Hr]; subst; try (destruct Ht).
    + subst. cbn [map List.concat]. apply in_or_app. left. apply Hw. auto.
    + cbn [map List.concat]. apply in_or_app. right. eapply IH; eauto.
  - intros Hc. rewrite rounds_head. split.
    2: { unfold first_size. rewrite length_concat_sum, map_map. f_equal.
         clear - R2 Hc. revert ns runs R2 Hc. induction ds as [|d ds IH]; intros [|n ns] runs R2 Hc; cbn [zip] in *; inversion R2 as [|? bss ? runs' Hw Hr]; subst; try reflexivity.
         cbn [map fst snd]. f_equal.
         - apply Hw. intros f Hf. apply Hc. cbn [map List.concat]. apply in_or_app; auto.
         - apply IH; auto. intros f Hf. apply Hc. cbn [map List.concat]. apply in_or_app; auto. }
    apply Forall_forall. intros x Hx. apply in_concat in Hx as (b & Hb & Hx).
    apply in_map_iff in Hb as (t & <- & Ht).
    assert (G : Forall (fun s => ssos s = true) (hd [] t)).
    { clear - R2 Ht Hc. revert ns runs R2 Ht Hc. induction ds as [|d ds IH]; intros [|n ns] runs R2 Ht Hc; cbn [zip] in R2; inversion R2 as [|? bss ? runs' Hw Hr]; subst; try (destruct Ht).
      - subst. apply Hw. intros f Hf. apply Hc. cbn [map List.concat]. apply in_or_app; auto.
      - eapply IH; eauto. intros f Hf. apply Hc. cbn [map List.concat]. apply in_or_app; auto. }
    rewrite Forall_forall in G. auto.
Qed.

(** From the merged stream to the batches of the loader. *)
Theorem deliver_spec w ld S ds order ns : ldrop ld = false -> loader_datasets w ld order = Ok ds ->
  Forall2 (fun d n => dbatch d = Some n /\ (0 < n)%Z /\ ddrop d = false) ds ns ->
  NoDup (List.concat (map dfiles ds)) ->
  (forall d f, In d ds -> In f (dfiles d) -> yields (process_data w d f) (S f)) ->
  (forall f, In f (List.concat (map dfiles ds)) -> complete_file (S f)) ->
  (loverlap ld = false -> List.concat (map dfiles ds) <> []) ->
  forall shuffles, Forall2 (@Permutation string) shuffles (map dfiles ds) ->
  exists n out, (forall fuel, n <= fuel -> loader_batches fuel w ld order shuffles = Some (gen_of out)) /\
    Forall (fun b => 1 <= length b <= list_sum (map Z.to_nat ns) /\ NoDup (map sid b)) out /\
    (forall f, In f (List.concat (map dfiles ds)) -> of_file f (List.concat out) = S f) /\
    (forall s, In s (List.concat out) -> In (sid s) (List.concat (map dfiles ds))) /\
    (loverlap ld = false -> in_groups out /\ full_groups (first_size ds ns) out).
Proof.
  intros Hdr Hds Hd Hn HS HC Hne shuffles Hs. destruct (merged_spec w S ds shuffles ns Hd Hs Hn HS) as (bss & B1 & B2 & B3 & B4 & B5).
  unfold loader_batches. rewrite Hds, Hdr. rewrite B1. destruct (loverlap ld).
  - exists 0, bss. split; [auto|]. split; [auto|]. split; [auto|]. split; [auto|discriminate].
  - specialize (Hne eq_refl). destruct (B5 HC) as [B6 B7].
    assert (Hf0 : exists f, In f (List.concat (map dfiles ds))) by (destruct (List.concat (map dfiles ds)) as [|f ?]; [congruence|exists f; left; auto]).
    destruct Hf0 as (f0 & Hf0).
    destruct bss as [|l t].
    { exfalso. specialize (B3 f0 Hf0). cbn in B3. destruct (HC f0 Hf0) as [G _]. congruence. }
    destruct (sync_full (l :: t) l t eq_refl) as (n & out & O1 & O2 & O3 & O4 & O5).
    { split.
      - exists l, t. split; [reflexivity|]. split; [|exact B6]. inversion B2 as [|? ? [H1 _] _]; subst. intros ->. cbn [length] in H1. lia.
      - intros f. destruct (in_dec String.string_dec f (List.concat (map dfiles ds))) as [Hf|Hf]; [right; rewrite B3; auto|left].
        apply filter_none. intros s Hx. apply String.eqb_neq. intros E. apply Hf. rewrite <- E. apply B4. auto. }
    exists n, out. split; [exact O1|]. split; [|split; [|split]].
    + inversion B2 as [|? ? [H1 _] _]; subst. eapply Forall_impl; [|exact O3]. cbn beta. intros c [G1 G2]. split; [lia|auto].
    + intros f Hf. rewrite O2. apply B3. auto.
    + intros s Hx. assert (G : In s (of_file (sid s) (List.concat out))) by (apply filter_In; split; auto; apply String.eqb_refl).
      rewrite O2 in G. apply filter_In in G as [G _]. apply B4. auto.
    + intros _. cbn [hd] in B7. rewrite <- B7. auto.
Qed.

Lemma process_same w d1 d2 f : dcn d1 = dcn d2 -> dcd d1 = dcd d2 -> process_data w d1 f = process_data w d2 f.
Proof. intros H1 H2. unfold process_data. now rewrite H1, H2. Qed.

Lemma list_sum_repeat n k : list_sum (repeat k n) = n * k.
Proof. induction n; simpl; lia. Qed.

Theorem loader_spec w d bs sh nw ov ld S order : new_loader (inl d) bs sh nw ov false = Ok ld ->
  (0 < bs)%Z -> (bs mod (Z.max 1 nw) = 0)%Z -> splittable w d -> NoDup (dfiles d) -> (ov = false -> dfiles d <> []) ->
  Permutation order (seq 0 (length (dfiles d))) ->
  (forall f, In f (dfiles d) -> yields (process_data w d f) (S f) /\ complete_file (S f)) ->
  exists ds, loader_datasets w ld order = Ok ds /\ length ds = Z.to_nat (Z.max 1 nw) /\ Permutation (List.concat (map dfiles ds)) (dfiles d) /\
  forall shuffles, Forall2 (@Permutation string) shuffles (map dfiles ds) ->
  exists n out, (forall fuel, n <= fuel -> loader_batches fuel w ld order shuffles = Some (gen_of out)) /\
    Forall (fun b => 1 <= length b <= Z.to_nat bs /\ NoDup (map sid b)) out /\
    (forall f, In f (dfiles d) -> of_file f (List.concat out) = S f) /\
    (forall s, In s (List.concat out) -> In (sid s) (dfiles d)) /\
    (ov = false -> in_groups out /\ full_groups (list_sum (map (fun e => Nat.min (Z.to_nat (bs / Z.max 1 nw)) (length (dfiles e))) ds)) out).
Proof.
  intros Hld Hbs Hmod Hsp Hnd Hne Hperm HS.
  assert (El : ld = mkLoader (inl d) bs sh nw ov false) by (unfold new_loader in Hld; cbn [andb] in Hld; congruence). subst ld. clear Hld.
  destruct (split_spec w d (Z.max 1 nw) bs sh false order 0%Z ltac:(lia) Hmod Hbs Hsp Hperm) as (ds & D1 & D2 & D3 & D4 & _).
  exists ds. split; [exact D1|]. split; [auto|]. split; [auto|]. intros shuffles Hs.
  set (per := (bs / Z.max 1 nw)%Z) in *.
  assert (Hper : (0 < per)%Z /\ (per * Z.max 1 nw = bs)%Z).
  { pose proof (Z.div_mod bs (Z.max 1 nw) ltac:(lia)) as Q. fold per in Q. rewrite Hmod in Q. nia. }
  destruct (deliver_spec w (mkLoader (inl d) bs sh nw ov false) S ds order (repeat per (length ds)) eq_refl D1) with (shuffles := shuffles)
    as (n & out & O1 & O2 & O3 & O4 & O5); auto.
  - clear - D4 Hper. induction D4 as [|x ds (_ & _ & _ & H1 & _ & H2) Hr IH]; cbn [length repeat]; constructor; auto. split; auto. split; auto. lia.
  - eapply Permutation_NoDup; [apply Permutation_sym; exact D3|auto].
  - intros x f Hx Hf. rewrite Forall_forall in D4. destruct (D4 x Hx) as (_ & H1 & H2 & _). rewrite (process_same w x d f H1 H2).
    apply HS. eapply Permutation_in; [exact D3|]. apply in_concat. exists (dfiles x). split; [now apply in_map|auto].
  - intros f Hf. apply HS. eapply Permutation_in; eauto.
  - cbn [loverlap]. intros E G. apply (Hne E). rewrite G in D3. now apply Permutation_nil in D3.
  - exists n, out. split; [exact O1|]. split; [|split; [|split]].
    + eapply Forall_impl; [|exact O2]. cbn beta. intros b [H1 H2]. split; [|auto].
      replace (list_sum (map Z.to_nat (repeat per (length ds)))) with (Z.to_nat bs) in H1; [auto|].
      rewrite D2. transitivity (Z.to_nat (Z.max 1 nw) * Z.to_nat per); [nia|]. rewrite <- list_sum_repeat. f_equal.
      generalize (Z.to_nat (Z.max 1 nw)). clear. intros k. induction k; simpl; congruence.
    + intros f Hf. apply O3. eapply Permutation_in; [apply Permutation_sym; exact D3|auto].
    + intros s Hx. eapply Permutation_in; [exact D3|]. auto.
    + intros E. destruct (O5 E) as [H1 H2]. split; [exact H1|]. replace (list_sum _) with (first_size ds (repeat per (length ds))); [exact H2|].
      unfold first_size. f_equal. clear. induction ds as [|e ds IH]; [reflexivity|]. cbn [length repeat zip map fst snd]. f_equal. exact IH.
Qed.

(** With the dataset's collate function every batch is collated. *)
Theorem loader_collates (fuel : nat) w ld order shuffles out (z : V) :
  loader_batches fuel w ld order shuffles = Some (gen_of out) -> Forall (fun b => 1 <= length b) out ->
  exists res, loader_iter fuel w ld order shuffles (Some (custom_collate z)) = Some (gen_of res) /\
    Forall2 (fun b r => custom_collate z b = Ok r) out res.
Proof.
  intros H Hb. unfold loader_iter. rewrite H. clear H.
  assert (G : exists res, gmapM (custom_collate z) (gen_of out) = gen_of res /\ Forall2 (fun b r => custom_collate z b = Ok r) out res).
  { induction Hb as [|b out Hb Hr IH]; [exists []; split; [reflexivity|constructor]|].
    destruct (collate_spec z b) as (r & _ & E & _); [intros ->; cbn [length] in Hb; lia|].
    destruct IH as (res & E2 & F). exists (r :: res). cbn [gen_of gmapM]. rewrite E, E2. split; [reflexivity|constructor; auto]. }
  destruct G as (res & G1 & G2). exists res. rewrite G1. auto.
Qed.

End Loader.

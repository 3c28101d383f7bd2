(** Proofs: which worker processes MultiStreamDataLoader starts, and with what. *)

From Coq Require Import String List ZArith Bool Lia.
From Coq Require Import ZifyBool.
From Verif Require Import Py Meta Named Pad Data DataSpec DataProofs PartitionProofs Workers LoaderArgs LoaderArgsSpec.
Import ListNotations.
Open Scope Z_scope.

Section LoaderArgsProofs.
Context {V : Type}.
Implicit Types (w : world V) (ld : loader) (a : dl_args).

Lemma mapM_len {A B} (f : A -> res B) : forall l r, mapM f l = Ok r -> length r = length l.
Proof.
  unfold mapM. induction l as [|x l IH]; intros r H; cbn [map seqM] in H.
  - injection H as <-. reflexivity.
  - destruct (f x) as [y|]; cbn [bind] in H; [|discriminate]. destruct (seqM (map f l)) as [ys|] eqn:E; cbn [bind] in H; [|discriminate].
    injection H as <-. cbn. now rewrite (IH ys).
Qed.

Lemma partition_len values : forall order parts idxs sums r, partition_loop values order parts idxs sums = Ok r ->
  length (snd r) = length idxs.
Proof.
  induction order as [|i order IH]; intros parts idxs sums r H; cbn [partition_loop] in H.
  - injection H as <-. reflexivity.
  - destruct (min_index sums) as [k|]; cbn [bind] in H; [|discriminate]. destruct (nth_error values i) as [v|]; [|discriminate].
    rewrite (IH _ _ _ _ H). apply upd_len.
Qed.

Lemma split_len w d nw bs sh dr order ds : split w d nw bs sh dr order = Ok ds -> length ds = Z.to_nat nw /\ 0 < nw.
Proof.
  unfold split. destruct (nw <=? 0) eqn:E1; [discriminate|]. destruct (negb (bs mod nw =? 0)) eqn:E2; [discriminate|].
  destruct (mapM _ (dfiles d)) as [ls|]; cbn [bind]; [|discriminate]. destruct (mapM _ ls) as [ns|]; cbn [bind]; [|discriminate].
  destruct (partition_by_sum ns nw false true order []) as [[ps idxs]|] eqn:EP; cbn [bind]; [|discriminate].
  destruct (mapM _ idxs) as [lists|] eqn:EL; cbn [bind]; [|discriminate].
  destruct (if Nat.eqb (length (dmeta d)) 0 then _ else _) as [mds|] eqn:EM; cbn [bind]; [|discriminate]. intros H.
  split; [|lia]. unfold partition_by_sum in EP. cbn [andb] in EP. apply partition_len in EP. cbn [snd] in EP. rewrite repeat_length in EP.
  apply mapM_len in EL. apply mapM_len in H. rewrite H.
  assert (length mds = length lists) as Hm.
  { destruct (Nat.eqb (length (dmeta d)) 0); [injection EM as <-; apply map_length|]. eapply mapM_len; eauto. }
  assert (HZ : forall (A B : Type) (l : list A) (m : list B), length m = length l -> length (zip l m) = length l).
  { induction l as [|x l IH]; intros [|y m] E; cbn in *; try lia. rewrite IH; lia. }
  rewrite HZ by auto. lia.
Qed.

Lemma datasets_len w ld order ds : loader_datasets w ld order = Ok ds ->
  length ds = match lsource ld with inl _ => Z.to_nat (Z.max 1 (lworkers ld)) | inr l => length l end.
Proof. unfold loader_datasets. destruct (lsource ld) as [d|l]; [intros H; now apply split_len in H|intros H; now injection H as <-]. Qed.

Lemma mapM_const {A B} (f : A -> res B) e l : l <> [] -> (forall x, f x = Err e) -> mapM f l = Err e.
Proof. intros H Hf. destruct l as [|x l]; [congruence|]. unfold mapM. cbn [map seqM]. now rewrite Hf. Qed.

Lemma mapM_pure {A B} (f : A -> res B) g l : (forall x, In x l -> f x = Ok (g x)) -> mapM f l = Ok (map g l).
Proof.
  unfold mapM. induction l as [|x l IH]; intros H; cbn [map seqM]; [reflexivity|].
  rewrite (H x) by now left. cbn [bind]. rewrite IH by (intros; apply H; now right). reflexivity.
Qed.

Lemma made_from source bs sh nw ov dr t pf pe ld a : new_multi source bs sh nw ov dr t pf pe = Ok (ld, a) ->
  lsource ld = source /\ a = loader_kwargs source nw t pf pe /\ (match source with inl _ => lworkers ld = nw | inr _ => nw <= 0 end).
Proof.
  unfold new_multi, new_loader. destruct (dr && negb ov); [discriminate|]. destruct source as [d|l]; cbn [bind].
  - intros H. injection H as <- <-. cbn. auto.
  - destruct (0 <? nw) eqn:E; cbn [bind]; [discriminate|]. intros H. injection H as <- <-. cbn. split; [auto|]. split; [auto|lia].
Qed.

(** All DataLoaders are alike. *)
Definition seen a p (i : nat) : opened := mkOpened p (map (init_id (Z.of_nat i)) (py_range 0 (aworkers a) 1)).

Lemma open_all w ld a order ds p : loader_datasets w ld order = Ok ds ->
  new_dataloader (aworkers a) (atimeout a) (aprefetch a) (apersistent a) false = Ok p ->
  open_loaders w ld a order = mapM (start_loader a) (map (seen a p) (seq 0 (length ds))).
Proof.
  intros Hd Hp. unfold open_loaders. rewrite Hd. cbn [bind]. rewrite (mapM_pure _ (seen a p)); [reflexivity|].
  intros i _. unfold open_loader. now rewrite Hp.
Qed.

Lemma open_refused w ld a order ds e : loader_datasets w ld order = Ok ds -> ds <> [] ->
  new_dataloader (aworkers a) (atimeout a) (aprefetch a) (apersistent a) false = Err e -> open_loaders w ld a order = Err e.
Proof.
  intros Hd Hn Hp. unfold open_loaders. rewrite Hd. cbn [bind]. rewrite (mapM_const _ e); [reflexivity| |].
  - destruct ds; [congruence|discriminate].
  - intros i. unfold open_loader. now rewrite Hp.
Qed.

Lemma start_all a p n : n <> O -> mapM (start_loader a) (map (seen a p) (seq 0 n)) =
  match p with
  | None => if 0 <? atimeout a then Err AssertionError else Ok (map (seen a p) (seq 0 n))
  | Some O => Err AssertionError
  | Some (S _) => Ok (map (seen a p) (seq 0 n))
  end.
Proof.
  intros Hn. unfold mapM. rewrite map_map.
  change (mapM (fun i => start_loader a (seen a p i)) (seq 0 n) = match p with
  | None => if 0 <? atimeout a then Err AssertionError else Ok (map (seen a p) (seq 0 n))
  | Some O => Err AssertionError
  | Some (S _) => Ok (map (seen a p) (seq 0 n))
  end).
  assert (Hs : seq 0 n <> []) by (destruct n; [congruence|discriminate]).
  unfold start_loader. cbn [seen oprefetch]. destruct p as [[|k]|]; [| |destruct (0 <? atimeout a)];
    try (apply mapM_const; auto); apply mapM_pure; auto.
Qed.

Lemma ids_of a p : forall n, aworkers a = 0 \/ aworkers a = 1 ->
  List.concat (map oinit (map (seen a p) (seq 0 n))) = if aworkers a =? 0 then [] else map Z.of_nat (seq 0 n).
Proof.
  intros n H. generalize O as k. induction n as [|n IH]; intros k; cbn [seq map List.concat]; [now destruct (aworkers a =? 0)|].
  rewrite IH. cbn [seen oinit]. destruct H as [-> | ->]; reflexivity.
Qed.

(** The general description of a start that succeeds. *)
Theorem opened_spec w source bs sh nw ov dr t pf pe ld a order os : new_multi source bs sh nw ov dr t pf pe = Ok (ld, a) ->
  open_loaders w ld a order = Ok os ->
  List.concat (map oinit os) = map Z.of_nat (seq 0 (worker_count source nw)) /\
  Forall (fun o => length (oinit o) = match oprefetch o with Some _ => 1%nat | None => O end) os /\
  (forall o, In o os -> oprefetch o = if own_workers source nw =? 0 then None
     else Some (match (if 0 <? nw then pf else None) with Some p => Z.to_nat p | None => 2%nat end)).
Proof.
  intros Hm Ho. destruct (made_from _ _ _ _ _ _ _ _ _ _ _ Hm) as (H1 & Ha & H2).
  destruct (loader_datasets w ld order) as [ds|e] eqn:Ed; [|unfold open_loaders in Ho; rewrite Ed in Ho; discriminate].
  pose proof (datasets_len _ _ _ _ Ed) as HL. rewrite H1 in HL.
  assert (Hw : aworkers a = if own_workers source nw =? 0 then 0 else 1) by now subst a.
  destruct ds as [|d0 ds0].
  { cbn in HL. unfold open_loaders in Ho. rewrite Ed in Ho. cbn in Ho. injection Ho as <-. cbn [map List.concat].
    split; [|split; [constructor|intros o []]]. unfold worker_count. destruct source as [d|l].
    - destruct (nw =? 0); [reflexivity|]. rewrite <- H2, <- HL. reflexivity.
    - now rewrite <- HL. }
  set (ds := d0 :: ds0) in *. assert (Hn : length ds <> O) by (cbn; lia).
  destruct (new_dataloader (aworkers a) (atimeout a) (aprefetch a) (apersistent a) false) as [p|e] eqn:Ep.
  2:{ rewrite (open_refused w ld a order ds e Ed) in Ho; auto; [discriminate|subst ds; discriminate]. }
  rewrite (open_all w ld a order ds p Ed Ep), start_all in Ho by auto.
  assert (Hp : p = if aworkers a =? 0 then None else Some (match aprefetch a with Some q => Z.to_nat q | None => 2%nat end)).
  { unfold new_dataloader in Ep. destruct (aworkers a <? 0); [discriminate|]. destruct (atimeout a <? 0); [discriminate|].
    destruct ((aworkers a =? 0) && _); [discriminate|]. destruct (match aprefetch a with Some q => q <? 0 | None => false end); [discriminate|].
    destruct (apersistent a && _); [discriminate|]. now injection Ep. }
  assert (os = map (seen a p) (seq 0 (length ds))).
  { destruct p as [[|k]|]; [discriminate| |destruct (0 <? atimeout a); [discriminate|]]; now injection Ho. }
  subst os. split; [|split].
  - rewrite ids_of by (rewrite Hw; destruct (own_workers source nw =? 0); auto). rewrite Hw.
    unfold worker_count. destruct source as [d|l]; cbn [own_workers].
    + rewrite HL, H2. destruct (nw =? 0); reflexivity.
    + rewrite HL. unfold zlen. destruct (Z.of_nat (length l) =? 0) eqn:E; [|reflexivity]. assert (length l = O) as -> by lia. reflexivity.
  - apply Forall_forall. intros o Hin. apply in_map_iff in Hin. destruct Hin as (i & <- & _). cbn [seen oinit oprefetch]. rewrite map_length.
    rewrite Hp, Hw. destruct (own_workers source nw =? 0); reflexivity.
  - intros o Hin. apply in_map_iff in Hin. destruct Hin as (i & <- & _). cbn [seen oprefetch]. rewrite Hp, Hw, Ha. cbn [loader_kwargs aprefetch].
    destruct (own_workers source nw =? 0); reflexivity.
Qed.

Lemma count_own source nw : worker_count source nw = O <-> own_workers source nw = 0.
Proof. destruct source as [d|l]; unfold worker_count, own_workers, zlen; [destruct (nw =? 0) eqn:E|]; lia. Qed.

(** Exactly when the start succeeds, and what is raised if it does not. *)
Theorem open_exact w source bs sh nw ov dr t pf pe ld a order ds : new_multi source bs sh nw ov dr t pf pe = Ok (ld, a) ->
  loader_datasets w ld order = Ok ds -> ds <> [] ->
  (startable source nw t pf pe -> exists os, open_loaders w ld a order = Ok os) /\
  (~ startable source nw t pf pe -> open_loaders w ld a order =
     Err (if (t <? 0) || (if own_workers source nw =? 0 then pe else (0 <? nw) && match pf with Some p => p <? 0 | None => false end)
          then ValueError else AssertionError)).
Proof.
  intros Hm Ed Hn. destruct (made_from _ _ _ _ _ _ _ _ _ _ _ Hm) as (H1 & Ha & H2).
  assert (Hw : aworkers a = if own_workers source nw =? 0 then 0 else 1) by now subst a.
  assert (Ht : atimeout a = t) by now subst a. assert (Hpe : apersistent a = pe) by now subst a.
  assert (Hpf : aprefetch a = if 0 <? nw then pf else None) by now subst a.
  assert (Hl : length ds <> O) by (destruct ds; [congruence|discriminate]).
  assert (Hz : own_workers source nw = 0 -> 0 <? nw = false) by (destruct source; cbn [own_workers]; lia).
  set (o := own_workers source nw) in *.
  assert (E : new_dataloader (aworkers a) (atimeout a) (aprefetch a) (apersistent a) false =
    if (t <? 0) || (if o =? 0 then pe else (0 <? nw) && match pf with Some p => p <? 0 | None => false end) then Err ValueError
    else Ok (if o =? 0 then None else Some (match (if 0 <? nw then pf else None) with Some p => Z.to_nat p | None => 2%nat end))).
  { unfold new_dataloader. rewrite Hw, Ht, Hpe, Hpf. destruct (o =? 0) eqn:E0.
    - rewrite Hz by lia. destruct (t <? 0), pe; reflexivity.
    - destruct (t <? 0); [reflexivity|]. destruct (0 <? nw); [destruct pf as [q|]; [destruct (q <? 0)|]|]; destruct pe; reflexivity. }
  destruct ((t <? 0) || (if o =? 0 then pe else (0 <? nw) && match pf with Some p => p <? 0 | None => false end)) eqn:Eb.
  - split.
    + intros (S1 & S2 & S3). exfalso. unfold o in Eb. destruct (own_workers source nw =? 0) eqn:E0.
      * assert (Ec : worker_count source nw = O) by (apply count_own; lia). destruct (S2 Ec) as [-> ->]. discriminate.
      * assert (Ec : worker_count source nw <> O) by (rewrite count_own; lia). apply orb_true_iff in Eb.
        destruct Eb as [Eb|Eb]; [lia|]. apply andb_true_iff in Eb.
        destruct pf as [q|]; [|destruct Eb; discriminate]. specialize (S3 Ec q eq_refl). lia.
    + intros _. now apply open_refused with (ds := ds).
  - rewrite (open_all w ld a order ds _ Ed E), start_all by auto. rewrite Ht.
    destruct (o =? 0) eqn:E0; unfold o in E0.
    + assert (Ec : worker_count source nw = O) by (apply count_own; lia).
      destruct (0 <? t) eqn:Et; [|split; [eauto|]].
      * split; [|reflexivity]. intros (S1 & S2 & S3). destruct (S2 Ec). lia.
      * intros Hs. exfalso. apply Hs. split; [lia|]. split; [|congruence]. intros _. split; [lia|]. destruct pe; [|reflexivity]. rewrite orb_true_r in Eb. discriminate.
    + assert (Ec : worker_count source nw <> O) by (rewrite count_own; lia).
      destruct (match (if 0 <? nw then pf else None) with Some p => Z.to_nat p | None => 2%nat end) as [|k] eqn:Ek.
      * split; [|reflexivity]. intros (S1 & S2 & S3). exfalso. destruct (0 <? nw) eqn:En; [|discriminate].
        destruct pf as [q|]; [|discriminate]. specialize (S3 Ec q eq_refl). lia.
      * split; [eauto|]. intros Hs. exfalso. apply Hs. split; [lia|]. split; [congruence|]. intros _ q Hq Hnw. subst pf.
        replace (0 <? nw) with true in Ek by lia. lia.
Qed.

End LoaderArgsProofs.

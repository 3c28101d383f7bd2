(** Properties of the arguments for worker processes (C91).

    [open_loaders w ld a order] makes and starts the DataLoaders of a loader made by [new_multi]; every element tells how many
    tasks the DataLoader gives out in advance (None: it has no worker process) and with which numbers worker_init_fn was
    called; see LoaderArgs.v. [worker_count] and [startable] are in LoaderArgsSpec.v. *)

From Coq Require Import String List ZArith Bool Lia.
From Coq Require Import ZifyBool.
From Verif Require Import Py Meta Named Pad Data DataSpec PartitionProofs Workers LoaderArgs LoaderArgsSpec LoaderArgsProofs.
Import ListNotations.
Open Scope string_scope.
Open Scope list_scope.
Open Scope Z_scope.

(** worker_init_fn is called once for every worker process, with the numbers 0, 1, 2, ... of the workers, and never without
    workers; every DataLoader has at most one. *)
Theorem C91_worker_ids : forall (V : Type) (w : world V) source bs sh nw ov dr t pf pe ld a order os,
  new_multi source bs sh nw ov dr t pf pe = Ok (ld, a) -> open_loaders w ld a order = Ok os ->
  List.concat (map oinit os) = map Z.of_nat (seq 0 (worker_count source nw)) /\
  Forall (fun o => length (oinit o) = match oprefetch o with Some _ => 1%nat | None => O end) os.
Proof. intros V w source bs sh nw ov dr t pf pe ld a order os H1 H2. destruct (opened_spec _ _ _ _ _ _ _ _ _ _ _ _ _ _ H1 H2) as (A & B & _). auto. Qed.

(** A single dataset: all workers have the prefetch factor asked for, 2 if none. *)
Theorem C91_prefetch : forall (V : Type) (w : world V) d bs sh nw ov dr t pf pe ld a order os o, 0 < nw ->
  new_multi (inl d) bs sh nw ov dr t pf pe = Ok (ld, a) -> open_loaders w ld a order = Ok os -> In o os ->
  oprefetch o = Some (match pf with Some p => Z.to_nat p | None => 2%nat end).
Proof.
  intros V w d bs sh nw ov dr t pf pe ld a order os o Hn H1 H2 Hin. destruct (opened_spec _ _ _ _ _ _ _ _ _ _ _ _ _ _ H1 H2) as (_ & _ & A).
  rewrite (A o Hin). cbn [own_workers]. replace (nw =? 0) with false by lia. replace (0 <? nw) with true by lia. reflexivity.
Qed.

(** It is false for a list of datasets: whatever factor is asked for, all workers have 2, and nothing is raised. *)
Theorem C91_prefetch_list_refuted : forall (V : Type) (w : world V) ds bs sh nw ov dr pf pe ld a order, ds <> [] ->
  new_multi (inr ds) bs sh nw ov dr 0 pf pe = Ok (ld, a) ->
  exists os, open_loaders w ld a order = Ok os /\ length os = length ds /\ Forall (fun o => oprefetch o = Some 2%nat) os.
Proof.
  intros V w ds bs sh nw ov dr pf pe ld a order Hd H. destruct (made_from _ _ _ _ _ _ _ _ _ _ _ H) as (H1 & Ha & H2).
  assert (Ed : loader_datasets w ld order = Ok ds) by (unfold loader_datasets; now rewrite H1).
  destruct (proj1 (open_exact w _ _ _ _ _ _ _ _ _ _ _ order ds H Ed Hd)) as [os Ho].
  { split; [lia|]. split; [destruct ds; [congruence|discriminate]|]. intros _ p _ Hp. lia. }
  exists os. split; [exact Ho|]. split.
  - unfold open_loaders in Ho. rewrite Ed in Ho. cbn [bind] in Ho. destruct (mapM (open_loader a) (seq 0 (length ds))) as [os'|] eqn:E; [|discriminate].
    cbn [bind] in Ho. apply mapM_len in Ho, E. rewrite seq_length in E. congruence.
  - destruct (opened_spec _ _ _ _ _ _ _ _ _ _ _ _ _ _ H Ho) as (_ & _ & A). apply Forall_forall. intros o Hin. rewrite (A o Hin). cbn [own_workers].
    replace (zlen ds =? 0) with false by (destruct ds; [congruence|unfold zlen; cbn; lia]). replace (0 <? nw) with false by lia. reflexivity.
Qed.

(** Exactly which arguments can be used, and what is raised for the others: when the iteration begins, not when the loader is
    made. *)
Theorem C91_startable : forall (V : Type) (w : world V) source bs sh nw ov dr t pf pe ld a order ds,
  new_multi source bs sh nw ov dr t pf pe = Ok (ld, a) -> loader_datasets w ld order = Ok ds -> ds <> [] ->
  ((exists os, open_loaders w ld a order = Ok os) <-> startable source nw t pf pe) /\
  (t < 0 -> open_loaders w ld a order = Err ValueError) /\
  (0 <= t -> worker_count source nw = 0%nat -> pe = true -> open_loaders w ld a order = Err ValueError) /\
  (0 < t -> worker_count source nw = 0%nat -> pe = false -> open_loaders w ld a order = Err AssertionError) /\
  (forall p, 0 <= t -> 0 < nw -> pf = Some p -> p <= 0 -> open_loaders w ld a order = Err (if p <? 0 then ValueError else AssertionError)).
Proof.
  intros V w source bs sh nw ov dr t pf pe ld a order ds H Ed Hd. destruct (open_exact w _ _ _ _ _ _ _ _ _ _ _ order ds H Ed Hd) as [A B].
  assert (D : startable source nw t pf pe \/ ~ startable source nw t pf pe).
  { unfold startable. destruct (Nat.eq_dec (worker_count source nw) 0) as [E|E], pf as [p|], pe; 
      destruct (Z_le_dec 0 t), (Z.eq_dec t 0), (Z_lt_dec 0 nw);
      try (destruct (Z_lt_dec 0 p)); try (left; repeat split; try congruence; try (intros; congruence); intros ? X; injection X; lia);
      try (right; intros (S1 & S2 & S3); try (destruct (S2 E); congruence); try lia; specialize (S3 E p eq_refl); lia);
      try (left; split; [auto|split; [intros; split; congruence|intros X p' Hp; congruence || (injection Hp; lia)]]). }
  destruct (made_from _ _ _ _ _ _ _ _ _ _ _ H) as (_ & _ & Hnw).
  split; [|split; [|split; [|split]]].
  - split; [|exact A]. intros [os Ho]. destruct D as [D|D]; [exact D|]. rewrite (B D) in Ho. discriminate.
  - intros Ht. rewrite B by (intros (S1 & _); lia). replace (t <? 0) with true by lia. reflexivity.
  - intros Ht Hc ->. rewrite B by (intros (_ & S2 & _); destruct (S2 Hc); discriminate). apply count_own in Hc. rewrite Hc. cbn. now rewrite orb_true_r.
  - intros Ht Hc ->. rewrite B by (intros (_ & S2 & _); destruct (S2 Hc); lia). apply count_own in Hc. rewrite Hc. cbn.
    replace (t <? 0) with false by lia. reflexivity.
  - intros p Ht Hn -> Hp. assert (Hs : exists d, source = inl d) by (destruct source; [eauto|exfalso; lia]). destruct Hs as [d ->].
    rewrite B.
    + cbn [own_workers]. replace (t <? 0) with false by lia. replace (nw =? 0) with false by lia. replace (0 <? nw) with true by lia. cbn.
      destruct (p <? 0); reflexivity.
    + intros (_ & _ & S3). cbn [worker_count] in S3. replace (nw =? 0) with false in S3 by lia. specialize (S3 ltac:(lia) p eq_refl Hn). lia.
Qed.

(** A negative number of workers, which torch refuses, starts one worker. *)
Theorem C91_negative_refuted : forall (V : Type) (w : world V) d bs sh nw ov dr t pf pe ld a order os, nw < 0 ->
  new_multi (inl d) bs sh nw ov dr t pf pe = Ok (ld, a) -> open_loaders w ld a order = Ok os -> List.concat (map oinit os) = [0].
Proof.
  intros V w d bs sh nw ov dr t pf pe ld a order os Hn H1 H2. destruct (opened_spec _ _ _ _ _ _ _ _ _ _ _ _ _ _ H1 H2) as (A & _).
  rewrite A. cbn [worker_count]. replace (nw =? 0) with false by lia. replace (Z.max 1 nw) with 1 by lia. reflexivity.
Qed.

(** Three files at rate 2, four workers of one file each at most; a list of two datasets; a factor of 5. *)
Definition quiet_world : world Z := mkWorld (fun _ => Ok ([1; 2; 3], 2)) (fun _ => Ok (3, 2)) (map Z.opp).
Definition quiet_set (files : list string) : dataset :=
  match new_dataset quiet_world files 1 1 None [] (Some 1) false false with Ok d => d | Err _ => mkDataset [] 0 0 [] [] None false false end.
Definition opened_of (source : dataset + list dataset) (nw t : Z) (pf : option Z) (pe : bool) : res (list opened) :=
  do '(ld, a) <- new_multi source 4 false nw true false t pf pe; open_loaders quiet_world ld a [0; 1; 2]%nat.
Example C91_example :
  opened_of (inl (quiet_set ["a"; "b"; "c"])) 4 0 (Some 5) true
    = Ok [mkOpened (Some 5%nat) [0]; mkOpened (Some 5%nat) [1]; mkOpened (Some 5%nat) [2]; mkOpened (Some 5%nat) [3]] /\
  opened_of (inl (quiet_set ["a"; "b"; "c"])) 0 0 (Some 5) false = Ok [mkOpened None []] /\
  opened_of (inr [quiet_set ["a"]; quiet_set ["b"; "c"]]) 0 7 (Some 5) true = Ok [mkOpened (Some 2%nat) [0]; mkOpened (Some 2%nat) [1]] /\
  opened_of (inl (quiet_set ["a"; "b"; "c"])) (-3) 0 (Some 5) true = Ok [mkOpened (Some 2%nat) [0]].
Proof. split; [|split; [|split]]; vm_compute; reflexivity. Qed.
Example C91_example_refused :
  opened_of (inl (quiet_set ["a"; "b"; "c"])) 0 3 None false = Err AssertionError /\
  opened_of (inl (quiet_set ["a"; "b"; "c"])) 0 0 None true = Err ValueError /\
  opened_of (inl (quiet_set ["a"; "b"; "c"])) 2 0 (Some 0) false = Err AssertionError /\
  opened_of (inl (quiet_set ["a"; "b"; "c"])) 2 0 (Some (-1)) false = Err ValueError /\
  opened_of (inr [quiet_set ["a"]]) 0 (-1) None false = Err ValueError.
Proof. split; [|split; [|split; [|split]]]; vm_compute; reflexivity. Qed.

(* ---- assumptions *)
Print Assumptions C91_worker_ids.
Print Assumptions C91_prefetch.
Print Assumptions C91_prefetch_list_refuted.
Print Assumptions C91_startable.
Print Assumptions C91_negative_refuted.

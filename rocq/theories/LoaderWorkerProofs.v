(** Proofs about the one-process loader. *)

From Coq Require Import String List ZArith Bool Lia.
From Coq Require Import ZifyBool.
From Verif Require Import Py Meta Named Pad Data Workers WorkersSpec WorkersProofs Pickle PickleSpec PickleProofs.
Import ListNotations.
Open Scope Z_scope.

Lemma gives_gen_of {A} (l : list A) : gives (gen_of l) l None.
Proof. induction l; cbn; constructor; assumption. Qed.

Section Loaders.
Context {V : Type}.

Lemma one_process_here src bs sh ov t pf pe :
  new_one_process src bs sh 0 ov false t pf pe =
  (do ld <- new_loader src bs sh 0 ov false;
   if (t <? 0) || (match pf with Some _ => true | None => false end) || pe then Err ValueError else Ok (ld, None)).
Proof.
  unfold new_one_process. cbn [Z.ltb Z.compare]. destruct (new_loader src bs sh 0 ov false); [|reflexivity]. cbn [bind].
  unfold new_dataloader. cbn. destruct (t <? 0); [reflexivity|]. destruct pf; [reflexivity|]. destruct pe; reflexivity.
Qed.

Lemma here_same {B} fuel (w : world V) ld order shuffles (c : option (list (sample V) -> res B)) :
  iterate_here fuel w ld 0 false order shuffles c = loader_iter fuel w ld order shuffles c.
Proof.
  unfold iterate_here, inner_iter. cbn. destruct (loader_datasets w ld order) as [[|d ds]|e] eqn:E.
  - reflexivity.
  - destruct (lworkers ld =? 0); reflexivity.
  - unfold loader_iter, loader_batches. rewrite E. reflexivity.
Qed.

Lemma there_same {B} fuel (w : world V) ld order shuffles (c : option (list (sample V) -> res B)) :
  lworkers ld = 0 -> inner_iter true fuel w ld 0 false order shuffles c = loader_iter fuel w ld order shuffles c.
Proof.
  intros H. unfold inner_iter. rewrite H. cbn. destruct (loader_datasets w ld order) as [[|d ds]|e] eqn:E; [reflexivity|reflexivity|].
  unfold loader_iter, loader_batches. rewrite E. reflexivity.
Qed.

Lemma one_process_there src bs sh ov pf : match pf with Some p => 0 <= p | None => True end ->
  new_one_process src bs sh 1 ov false 0 pf false =
  (do ld <- new_loader src bs sh 0 ov false; Ok (ld, Some (match pf with Some p => Z.to_nat p | None => 2%nat end))).
Proof.
  intros H. unfold new_one_process. cbn [Z.ltb Z.compare Pos.compare Pos.compare_cont]. destruct (new_loader src bs sh 0 ov false); [|reflexivity].
  cbn [bind]. unfold new_dataloader. cbn. destruct pf as [p|]; [|reflexivity]. destruct (Z.ltb_spec p 0); [lia|]. reflexivity.
Qed.

Lemma new_loader_single d bs sh ov dl ld : new_loader (inl d) bs sh 0 ov dl = Ok ld -> lworkers ld = 0.
Proof. unfold new_loader. destruct (dl && negb ov)%bool; [discriminate|]. intros H. injection H as <-. reflexivity. Qed.

Lemma new_loader_list ds bs sh ov dl ld : new_loader (inr ds) bs sh 0 ov dl = Ok ld -> lworkers ld = zlen ds /\ lsource ld = inr ds.
Proof. unfold new_loader. destruct (dl && negb ov)%bool; [discriminate|]. intros H. injection H as <-. split; reflexivity. Qed.

Lemma drop_last_refused src bs sh nw ov t pf pe : new_one_process src bs sh nw ov true t pf pe = Err ValueError.
Proof.
  unfold new_one_process. destruct (1 <? nw); [reflexivity|]. unfold new_loader. cbn [andb]. destruct (negb ov); [reflexivity|].
  assert (E : new_dataloader nw t pf pe true = Err ValueError).
  { unfold new_dataloader. destruct (nw <? 0); [reflexivity|]. destruct (t <? 0); [reflexivity|].
    destruct ((nw =? 0) && match pf with Some _ => true | None => false end)%bool; [reflexivity|].
    destruct (match pf with Some p => p <? 0 | None => false end); [reflexivity|]. destruct (pe && (nw =? 0))%bool; reflexivity. }
  destruct src as [d|l]; cbn [bind Z.ltb Z.compare]; rewrite E; reflexivity.
Qed.

Lemma list_in_worker {B} fuel (w : world V) ld d ds order shuffles (c : option (list (sample V) -> res B)) pe t :
  0 <= t -> lsource ld = inr (d :: ds) -> lworkers ld = zlen (d :: ds) ->
  inner_iter true fuel w ld t pe order shuffles c = Some (GRaise AssertionError).
Proof.
  intros HT HS HW. unfold inner_iter, loader_datasets. rewrite HS, HW.
  assert (E : zlen (d :: ds) =? 0 = false) by (unfold zlen; cbn [length]; lia). rewrite E.
  unfold new_dataloader. cbn. destruct (Z.ltb_spec t 0); [lia|]. rewrite Bool.andb_false_r. reflexivity.
Qed.

Lemma timeout_here {B} fuel (w : world V) ld t pe order shuffles (c : option (list (sample V) -> res B)) :
  0 < t -> iterate_here fuel w ld t pe order shuffles c = Some (GRaise AssertionError).
Proof. intros H. unfold iterate_here. destruct (Z.ltb_spec 0 t); [reflexivity|lia]. Qed.

Lemma timeout_there {B} fuel (w : world V) ld t order shuffles (c : option (list (sample V) -> res B)) d ds :
  0 < t -> lworkers ld = 0 -> loader_datasets w ld order = Ok (d :: ds) ->
  inner_iter true fuel w ld t false order shuffles c = Some (GRaise AssertionError).
Proof.
  intros HT HW HD. unfold inner_iter. rewrite HD, HW. unfold new_dataloader. cbn. destruct (Z.ltb_spec t 0); [lia|].
  destruct (Z.ltb_spec 0 t); [reflexivity|lia].
Qed.

Lemma persistent_there {B} fuel (w : world V) ld t order shuffles (c : option (list (sample V) -> res B)) d ds :
  0 <= t -> lworkers ld = 0 -> loader_datasets w ld order = Ok (d :: ds) ->
  inner_iter true fuel w ld t true order shuffles c = Some (GRaise ValueError).
Proof. intros HT HW HD. unfold inner_iter. rewrite HD, HW. unfold new_dataloader. cbn. destruct (Z.ltb_spec t 0); [lia|]. reflexivity. Qed.

End Loaders.

Lemma streams_unsendable {V} (l : list (pyv V)) : Forall (fun b => exists t n m, inside (Stream t n m) b) l -> Forall (unsendable dumps) l.
Proof. intros H. eapply Forall_impl; [|exact H]. intros b [t [n [m Hi]]]. exact (stream_inside t n m b Hi). Qed.

Lemma portables_arrive {V} (l : list (pyv V)) : Forall (fun b => portable b /\ one_name_each b) l -> Forall (arrives dumps loads) l.
Proof. intros H. eapply Forall_impl; [|exact H]. intros b [H1 H2]. exact (portable_arrives b H1 H2). Qed.

(* ---- executions of the loader with a worker *)

Section There.
Context {V B K : Type} (dump : B -> res K) (unpack : K -> res B).

Lemma there_start (k fuel : nat) (w : world V) ld t pe order shuffles (c : option (list (sample V) -> res B)) g :
  (0 < k)%nat -> inner_iter true fuel w ld t pe order shuffles c = Some g ->
  iterate_there (K := K) k fuel w ld t pe order shuffles c = Some (start k g).
Proof. intros Hk E. unfold iterate_there. rewrite E. destruct k; [lia|reflexivity]. Qed.

Lemma there_raises (k fuel : nat) (w : world V) ld t pe order shuffles (c : option (list (sample V) -> res B)) x m0 n m :
  (0 < k)%nat -> inner_iter true fuel w ld t pe order shuffles c = Some (GRaise x) ->
  iterate_there (K := K) k fuel w ld t pe order shuffles c = Some m0 -> runs_to dump unpack m0 n m ->
  out m = [] /\ stat m <> Stopped /\ (forall y, stat m = Raised y -> y = x) /\
  (stat m = Running -> wstep dump m <> None \/ mstep unpack m <> None) /\ (n <= 2 * k + 4)%nat.
Proof.
  intros Hk E HS HR. rewrite (there_start _ _ _ _ _ _ _ _ _ _ Hk E) in HS. injection HS as <-.
  destruct (worker_delivers dump unpack k [] (Some x) _ n m Hk (gives_raise x) (Forall_nil _) HR) as [[rest H1] [H2 [H3 [H4 H5]]]].
  split; [destruct (out m); [reflexivity|discriminate]|]. split; [intros H; destruct (H2 H); discriminate|].
  split; [intros y H; destruct (H3 y H) as [_ H']; congruence|]. split; [exact H4|]. cbn in H5. lia.
Qed.

Lemma there_zero (fuel : nat) (w : world V) ld t pe order shuffles (c : option (list (sample V) -> res B)) m0 n m :
  iterate_there (K := K) 0 fuel w ld t pe order shuffles c = Some m0 -> runs_to dump unpack m0 n m ->
  out m = [] /\ stat m = Raised AssertionError.
Proof.
  unfold iterate_there. destruct (inner_iter true fuel w ld t pe order shuffles c) as [g|]; [|discriminate]. intros H HR. injection H as <-.
  induction HR as [|n m1 m2 _ [I1 I2] HS|n m1 m2 _ [I1 I2] HS].
  - split; reflexivity.
  - unfold wstep in HS. destruct (tasks m1); [discriminate|]. destruct (ended m1); [|destruct (left m1)]; injection HS as <-; split; assumption.
  - unfold mstep in HS. rewrite I2 in HS. discriminate.
Qed.

Lemma one_process_made src bs sh ov pf pe ld k : new_one_process src bs sh 1 ov false 0 pf pe = Ok (ld, Some k) -> pf <> Some 0%Z ->
  new_loader src bs sh 0 ov false = Ok ld /\ (0 < k)%nat.
Proof.
  intros H Hp. unfold new_one_process in H. cbn [Z.ltb Z.compare Pos.compare Pos.compare_cont] in H.
  destruct (new_loader src bs sh 0 ov false) as [ld'|] eqn:E; [|discriminate]. cbn [bind] in H. unfold new_dataloader in H.
  rewrite Bool.andb_false_l, Bool.andb_false_r in H. cbn [Z.ltb Z.compare Z.eqb] in H.
  destruct pf as [p|].
  - destruct (Z.ltb_spec p 0); [discriminate|]. cbn [bind] in H. injection H as <- <-. split; [reflexivity|]. assert (p <> 0) by congruence. lia.
  - cbn [bind] in H. injection H as <- <-. split; [reflexivity|lia].
Qed.

Lemma there_delivers d bs sh ov pf ld k fuel (w : world V) order shuffles (c : option (list (sample V) -> res B)) l m0 n m :
  new_one_process (inl d) bs sh 1 ov false 0 pf false = Ok (ld, Some k) -> pf <> Some 0%Z ->
  loader_iter fuel w ld order shuffles c = Some (gen_of l) -> Forall (arrives dump unpack) l ->
  iterate_there k fuel w ld 0 false order shuffles c = Some m0 -> runs_to dump unpack m0 n m ->
  new_loader (inl d) bs sh 0 ov false = Ok ld /\
  (exists rest, l = out m ++ rest) /\ (stat m = Stopped -> out m = l) /\ (forall x, stat m <> Raised x) /\
  (stat m = Running -> wstep dump m <> None \/ mstep unpack m <> None) /\ (n <= 2 * (length l + k) + 4)%nat.
Proof.
  intros HN Hp HL HF HS HR. destruct (one_process_made _ _ _ _ _ _ _ _ HN Hp) as [HN' Hk]. split; [exact HN'|].
  pose proof (there_same fuel w ld order shuffles c (new_loader_single _ _ _ _ _ _ HN')) as E. rewrite HL in E.
  rewrite (there_start _ _ _ _ _ _ _ _ _ _ Hk E) in HS. injection HS as <-.
  destruct (worker_delivers dump unpack k l None _ n m Hk (gives_gen_of l) HF HR) as [H1 [H2 [H3 [H4 H5]]]].
  split; [exact H1|]. split; [intros H; exact (proj1 (H2 H))|]. split; [intros x Hx; destruct (H3 x Hx); discriminate|]. split; [exact H4|exact H5].
Qed.

Lemma there_list d ds bs sh ov pf pe ld k fuel (w : world V) order shuffles (c : option (list (sample V) -> res B)) m0 n m :
  new_one_process (inr (d :: ds)) bs sh 1 ov false 0 pf pe = Ok (ld, Some k) -> pf <> Some 0%Z ->
  iterate_there k fuel w ld 0 pe order shuffles c = Some m0 -> runs_to dump unpack m0 n m ->
  out m = [] /\ stat m <> Stopped /\ (forall y, stat m = Raised y -> y = AssertionError) /\
  (stat m = Running -> wstep dump m <> None \/ mstep unpack m <> None) /\ (n <= 2 * k + 4)%nat.
Proof.
  intros HN Hp HS HR. destruct (one_process_made _ _ _ _ _ _ _ _ HN Hp) as [HN' Hk].
  destruct (new_loader_list _ _ _ _ _ _ HN') as [HW HSrc].
  apply (there_raises k fuel w ld 0 pe order shuffles c AssertionError m0 n m Hk); [|exact HS|exact HR].
  apply (list_in_worker fuel w ld d ds); [lia|exact HSrc|exact HW].
Qed.

End There.

Lemma there_loses {V W} d bs sh ov pf ld k fuel (w : world V) order shuffles (c : option (list (sample V) -> res (pyv W))) (l : list (pyv W)) m0 n m :
  new_one_process (inl d) bs sh 1 ov false 0 pf false = Ok (ld, Some k) -> pf <> Some 0%Z ->
  loader_iter fuel w ld order shuffles c = Some (gen_of l) -> (forall b, In b l -> exists t nm mt, inside (Stream t nm mt) b) ->
  iterate_there k fuel w ld 0 false order shuffles c = Some m0 -> runs_to dumps loads m0 n m ->
  out m = [] /\ (n <= 2 * k + 2)%nat /\ (forall x, stat m <> Raised x) /\
  ((length l < k)%nat -> stat m = Running -> wstep dumps m <> None \/ mstep loads m <> None) /\
  ((k <= length l)%nat -> stat m = Running).
Proof.
  intros HN Hp HL HF HS HR. destruct (one_process_made _ _ _ _ _ _ _ _ HN Hp) as [HN' Hk].
  pose proof (there_same fuel w ld order shuffles c (new_loader_single _ _ _ _ _ _ HN')) as E. rewrite HL in E.
  rewrite (there_start _ _ _ _ _ _ _ _ _ _ Hk E) in HS. injection HS as <-.
  apply (worker_loses dumps loads k l (gen_of l) n m Hk (gives_gen_of l)); [|exact HR].
  apply Forall_forall. intros b Hb. destruct (HF b Hb) as [t [nm [mt Hi]]]. exact (stream_inside t nm mt b Hi).
Qed.

Lemma samples_delivered {V} prefetch (l : list (pyv V)) n m : (0 < prefetch)%nat ->
  (forall b, In b l -> exists ss, b = PSeq false ss /\ forall s, In s ss -> exists d sos eos len idx num id file md,
     s = sample_value d sos eos len idx num id (Atom file) (Atom md)) ->
  runs_to dumps loads (start prefetch (gen_of l)) n m ->
  (exists rest, l = out m ++ rest) /\ (stat m = Stopped -> out m = l) /\ (forall x, stat m <> Raised x) /\
  (stat m = Running -> wstep dumps m <> None \/ mstep loads m <> None).
Proof.
  intros Hk HF HR.
  destruct (worker_delivers dumps loads prefetch l None _ n m Hk (gives_gen_of l)) as [H1 [H2 [H3 [H4 _]]]]; [|exact HR|].
  - apply Forall_forall. intros b Hb. destruct (HF b Hb) as [ss [-> Hs]].
    assert (A : Forall (fun v : pyv V => exists k, dumps v = Ok k /\ loads k = Ok v) ss).
    { apply Forall_forall. intros s Hss. destruct (Hs s Hss) as [d [sos [eos [len [idx [num [id [file [md ->]]]]]]]]].
      assert (T : forall a, portable (Atom a : pyv V) /\ one_name_each (Atom a : pyv V)).
      { intros a. assert (N : forall x : pyv V, inside x (Atom a) -> x = Atom a) by (intros x Hx; inversion Hx; reflexivity).
        split; [|intros t n0 Hx; discriminate (N _ Hx)].
        split; [intros t n0 m0 Hx; discriminate (N _ Hx)|]. split; [intros x o Hx; discriminate (N _ Hx)|].
        split; [intros sl Hx; discriminate (N _ Hx)|]. intros t n0 s0 Hx. discriminate (N _ Hx). }
      pose proof (sample_arrives d sos eos len idx num id (Atom file) (Atom md) (proj1 (T file)) (proj2 (T file)) (proj1 (T md)) (proj2 (T md))) as Ht.
      unfold transport in Ht. destruct (dumps (sample_value d sos eos len idx num id (Atom file) (Atom md))) as [kk|] eqn:E; [|discriminate].
      exists kk. split; [reflexivity|exact Ht]. }
    destruct (transport_list ss A) as [ks [E1 E2]]. exists (KSeq false ks). rewrite dumps_seq, E1, loads_seq, E2. split; reflexivity.
  - split; [exact H1|]. split; [intros H; exact (proj1 (H2 H))|]. split; [intros x Hx; destruct (H3 x Hx); discriminate|exact H4].
Qed.

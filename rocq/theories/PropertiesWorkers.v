(** Properties of pickling (C75), of worker processes (C76) and of the loader in one process (C77). *)

From Coq Require Import String List ZArith Bool Lia.
From Verif Require Import Py Meta Named Pad Data DataSpec PropertiesData Pickle PickleSpec PickleProofs Workers WorkersSpec WorkersProofs LoaderWorkerProofs.
Import ListNotations.
Open Scope string_scope.
Open Scope list_scope.
Open Scope nat_scope.

(* ---------- C75 ---------- *)

(** C75: a value arrives in another process exactly if no part of it is a StreamTensor, metadata or a tensor with names, and then unchanged. *)
Theorem C75_exact : forall (V : Type) (v w : pyv V), one_name_each v -> (transport v = Ok w <-> portable v /\ w = v).
Proof. intros V. exact transport_exact. Qed.

(** C75: StreamSamples arrive. *)
Theorem C75_samples : forall (V : Type) (d : @tensor V) sos eos len idx num id file md,
  portable file -> one_name_each file -> portable md -> one_name_each md ->
  transport (sample_value d sos eos len idx num id file md) = Ok (sample_value d sos eos len idx num id file md).
Proof. intros V. exact sample_arrives. Qed.

(** The fields arrive under their names. *)
Theorem C75_fields : forall (V : Type) (d : @tensor V) sos eos len idx num id file md,
  portable file -> one_name_each file -> portable md -> one_name_each md ->
  exists fs, transport (sample_value d sos eos len idx num id file md) = Ok (Obj "StreamSample" fs []) /\ NoDup (map fst fs) /\
    In ("data", Plain d (map (fun _ => None) (shp d))) fs /\ In ("sos", Atom sos) fs /\ In ("eos", Atom eos) fs /\ In ("length", Atom len) fs /\
    In ("chunk_index", Atom idx) fs /\ In ("num_chunks", Atom num) fs /\ In ("id", Atom id) fs /\ In ("file", file) fs /\
    In ("file_metadata", md) fs /\ length fs = 9.
Proof.
  intros V d sos eos len idx num id file md H1 H2 H3 H4. eexists. split; [apply sample_arrives; assumption|].
  assert (E : repeat (@None string) (ndim d) = map (fun _ => None) (shp d)).
  { unfold ndim. induction (shp d) as [|a l IH]; [reflexivity|]. cbn [length repeat map]. f_equal. exact IH. }
  rewrite E. split.
  - cbn [map fst]. repeat (apply NoDup_cons; [cbn [In]; intuition discriminate|]). apply NoDup_nil.
  - cbn [In]. repeat split; auto 12.
Qed.

Definition ex_tensor : @tensor Z := mkTn [2; 3]%Z (fun ix => fold_left (fun a i => a * 10 + i)%Z ix 0%Z).
Definition ex_sample : pyv Z := sample_value ex_tensor "True" "False" "3" "0" "2" "a" (Atom "a.wav") (PSeq true [Atom "16000"; Atom "1"]).
Example C75_example : transport (PSeq false [ex_sample; ex_sample]) = Ok (PSeq false [ex_sample; ex_sample]) /\
  transport (Plain ex_tensor [Some BATCH; None]) = Err RuntimeError.
Proof. split; reflexivity. Qed.

(** C75 is false for StreamTensors: nothing with a StreamTensor in it can be saved, so __getstate__ and __setstate__ are of no use. *)
Theorem C75_stream_tensors_refuted : forall (V : Type) t n m (v : pyv V), inside (Stream t n m) v -> exists e, dumps v = Err e.
Proof. intros V. exact stream_inside. Qed.
(** A StreamTensor by itself: RuntimeError with names, AttributeError without. *)
Theorem C75_stream_tensor_refuted : forall (V : Type) t n (m : pyv V),
  ((exists s, In (Some s) n) -> dumps (Stream t n (Some m)) = Err RuntimeError) /\
  (~ (exists s, In (Some s) n) -> dumps (Stream t n (Some m)) = Err AttributeError).
Proof.
  intros V t n m. rewrite dumps_stream. split.
  - intros [s Hs]. destruct (has_names n) eqn:E; [reflexivity|]. exfalso. exact (proj1 (no_names n) E s Hs).
  - intros H. destruct (has_names n) eqn:E; [|reflexivity]. exfalso. assert (F : has_names n = false); [|congruence].
    apply no_names. intros s Hs. apply H. now exists s.
Qed.
Example C75_example_stream_tensor : dumps (Stream ex_tensor [Some BATCH; Some LENGTH] (Some (Proxy (Atom "") None))) = Err RuntimeError /\
  dumps (Stream ex_tensor [None; None] (Some (Proxy (Atom "") None))) = Err AttributeError.
Proof. split; reflexivity. Qed.

(** C75 is false for metadata: those never used can be saved but not loaded (KeyError), those used neither (TypeError). *)
Theorem C75_metadata_refuted : forall (V : Type) (args : pyv V) sl, portable args -> one_name_each args ->
  (forall s x, In (s, x) sl -> portable x /\ one_name_each x) ->
  transport (Proxy args None) = Err KeyError /\ transport (Proxy args (Some (MetaObj sl))) = Err TypeError.
Proof. intros V args sl H1 H2 H3. split; [exact (metadata_fresh args H1 H2)|exact (metadata_used args sl H1 H2 H3)]. Qed.
Example C75_example_metadata :
  let args := PSeq true [PSeq false [Atom "a"]; Plain (mkTn [1%Z] (fun _ => 3%Z)) [None]] : pyv Z in
  transport args = Ok args /\ transport (Proxy args None) = Err KeyError /\
  transport (Proxy args (Some (MetaObj [("_ids", PSeq false [Atom "a"]); ("_lengths", Plain (mkTn [1%Z] (fun _ => 3%Z)) [None])]))) = Err TypeError.
Proof. repeat split; reflexivity. Qed.

(** C75 is false for an OutputCollector with an entry. *)
Theorem C75_collector_refuted : forall (V : Type) s t n m entries closed, In (s, Stream t n m) entries ->
  exists e, dumps (collector_value (V := V) entries closed) = Err e.
Proof. intros V. exact collector_stuck. Qed.
Example C75_example_collector : dumps (collector_value [("a", Stream ex_tensor [Some "F"; Some LENGTH] (Some (Atom "")))] ["a"]) = Err RuntimeError /\
  transport (collector_value (V := Z) [] ["a"]) = Ok (collector_value [] ["a"]).
Proof. split; reflexivity. Qed.

(** C75: copy.copy of a StreamTensor without names gives an equal one; with names it is refused. *)
Theorem C75_copy : forall (V : Type) t (m : pyv V), copy_stream t (repeat None (ndim t)) (Some m) = Ok (Stream t (repeat None (ndim t)) (Some m)).
Proof. intros V. exact copy_unnamed. Qed.
Theorem C75_copy_refuted : forall (V : Type) t n s (m : pyv V), In (Some s) n -> copy_stream t n (Some m) = Err RuntimeError.
Proof.
  intros V t n s m Hs. apply copy_named. destruct (has_names n) eqn:E; [reflexivity|]. exfalso. exact (proj1 (no_names n) E s Hs).
Qed.
Example C75_example_copy : copy_stream ex_tensor [None; None] (Some (Atom "meta")) = Ok (Stream ex_tensor [None; None] (Some (Atom "meta"))) /\
  copy_stream ex_tensor [Some BATCH; Some LENGTH] (Some (Atom "meta")) = Err RuntimeError.
Proof. split; reflexivity. Qed.

(* ---------- C76 ---------- *)

(** C76: in every execution of the two processes the program has got a prefix of the items of the dataset in their order; when the
    iteration is over it has got them all, and it ends as the dataset does; until then a step is possible, and there are finitely many. *)
Theorem C76_delivers : forall (A K : Type) (dump : A -> res K) (unpack : K -> res A) prefetch l e g n m,
  0 < prefetch -> gives g l e -> Forall (arrives dump unpack) l -> runs_to dump unpack (start prefetch g) n m ->
  (exists rest, l = out m ++ rest) /\
  (stat m = Stopped -> out m = l /\ e = None) /\ (forall x, stat m = Raised x -> out m = l /\ e = Some x) /\
  (stat m = Running -> wstep dump m <> None \/ mstep unpack m <> None) /\
  n <= 2 * (length l + prefetch) + 4.
Proof. intros A K. exact worker_delivers. Qed.

(** C76: so do lists of samples, which is what the workers of MultiStreamDataLoader send. *)
Theorem C76_samples : forall (V : Type) prefetch (l : list (pyv V)) n m, 0 < prefetch ->
  (forall b, In b l -> exists ss, b = PSeq false ss /\ forall s, In s ss -> exists d sos eos len idx num id file md,
     s = sample_value d sos eos len idx num id (Atom file) (Atom md)) ->
  runs_to dumps loads (start prefetch (gen_of l)) n m ->
  (exists rest, l = out m ++ rest) /\ (stat m = Stopped -> out m = l) /\ (forall x, stat m <> Raised x) /\
  (stat m = Running -> wstep dumps m <> None \/ mstep loads m <> None).
Proof. intros V. exact samples_delivered. Qed.

(** An execution that asks the worker first at every step. *)
Fixpoint run_worker_first {A K} (dump : A -> res K) (unpack : K -> res A) (n : nat) (m : machine A K) : machine A K :=
  match n with
  | O => m
  | S n' => match wstep dump m with
            | Some m' => run_worker_first dump unpack n' m'
            | None => match mstep unpack m with Some m' => run_worker_first dump unpack n' m' | None => m end
            end
  end.
Lemma run_worker_first_runs {A K} (dump : A -> res K) (unpack : K -> res A) n m0 k m :
  runs_to dump unpack m0 k m -> exists k', runs_to dump unpack m0 k' (run_worker_first dump unpack n m).
Proof.
  revert k m. induction n as [|n IH]; intros k m H; cbn; [now exists k|].
  destruct (wstep dump m) eqn:E; [exact (IH (S k) _ (run_worker _ _ _ _ _ _ H E))|].
  destruct (mstep unpack m) eqn:F; [exact (IH (S k) _ (run_main _ _ _ _ _ _ H F))|now exists k].
Qed.
Definition ex_items : list (pyv Z) := [PSeq false [ex_sample]; PSeq false [ex_sample; ex_sample]; PSeq false []].
Example C76_example : exists n m, runs_to dumps loads (start 2 (gen_of ex_items)) n m /\ stat m = Stopped /\ out m = ex_items.
Proof.
  destruct (run_worker_first_runs dumps loads 20 (start 2 (gen_of ex_items)) 0 _ (run_nil _ _ _)) as [n Hn]. exists n. eexists. split; [exact Hn|].
  split; reflexivity.
Qed.

(** C76 is false for items that cannot be pickled: none arrives and there is no exception. With fewer items than are asked for in advance
    the iteration can go on to its end, otherwise it waits for ever. *)
Theorem C76_lost_refuted : forall (A K : Type) (dump : A -> res K) (unpack : K -> res A) prefetch l g n m,
  0 < prefetch -> gives g l None -> Forall (unsendable dump) l -> runs_to dump unpack (start prefetch g) n m ->
  out m = [] /\ n <= 2 * prefetch + 2 /\ (forall x, stat m <> Raised x) /\
  (length l < prefetch -> stat m = Running -> wstep dump m <> None \/ mstep unpack m <> None) /\
  (prefetch <= length l -> stat m = Running).
Proof. intros A K. exact worker_loses. Qed.

Definition ex_stream : pyv Z := Stream ex_tensor [Some BATCH; Some LENGTH] (Some (Proxy (Atom "") None)).
Example C76_example_lost :
  (exists n m, runs_to dumps loads (start 2 (gen_of [ex_stream])) n m /\ stat m = Stopped /\ out m = []) /\
  (exists n m, runs_to dumps loads (start 2 (gen_of [ex_stream; ex_stream])) n m /\ hangs dumps loads m).
Proof.
  split.
  - destruct (run_worker_first_runs dumps loads 20 (start 2 (gen_of [ex_stream])) 0 _ (run_nil _ _ _)) as [n Hn]. exists n. eexists. split; [exact Hn|].
    split; reflexivity.
  - destruct (run_worker_first_runs dumps loads 20 (start 2 (gen_of [ex_stream; ex_stream])) 0 _ (run_nil _ _ _)) as [n Hn]. exists n. eexists.
    split; [exact Hn|]. repeat split; reflexivity.
Qed.

(** An item that can be pickled but not read again ends the iteration with the error of the reading; the items after it are not
    delivered. *)
Theorem C76_unreadable : forall (A K : Type) (dump : A -> res K) (unpack : K -> res A) prefetch a g k x n m,
  0 < prefetch -> dump a = Ok k -> unpack k = Err x -> runs_to dump unpack (start prefetch (GCons a g)) n m ->
  out m = [] /\ (stat m = Raised x \/ (stat m = Running /\ (wstep dump m <> None \/ mstep unpack m <> None))).
Proof. intros A K. exact worker_unreadable. Qed.

Example C76_example_unreadable : exists n m,
  runs_to (fun a : nat => Ok a) (fun a => if Nat.eqb a 7 then Err ValueError else Ok a) (start 2 (gen_of [7; 8])) n m /\ stat m = Raised ValueError.
Proof.
  destruct (run_worker_first_runs (fun a : nat => Ok a) (fun a => if Nat.eqb a 7 then Err ValueError else Ok a) 20 (start 2 (gen_of [7; 8])) 0 _ (run_nil _ _ _)) as [n Hn].
  exists n. eexists. split; [exact Hn|]. reflexivity.
Qed.

(* ---------- C77 ---------- *)

(** C77: without worker and the other options the one-process loader is made when the loader is, and gives what it gives. *)
Theorem C77_no_worker : forall (V B : Type) src bs sh ov,
  (new_one_process src bs sh 0 ov false 0 None false = match new_loader src bs sh 0 ov false with Ok ld => Ok (ld, None) | Err e => Err e end) /\
  forall fuel (w : world V) ld order shuffles (c : option (list (sample V) -> res B)),
    iterate_here fuel w ld 0 false order shuffles c = loader_iter fuel w ld order shuffles c.
Proof.
  intros V B src bs sh ov. split; [|intros; apply here_same]. rewrite one_process_here. cbn. destruct (new_loader src bs sh 0 ov false); reflexivity.
Qed.

(** C77: with a worker and a single dataset, if the batches of the loader can be sent, the program gets them in every execution. *)
Theorem C77_worker : forall (V B K : Type) (dump : B -> res K) (unpack : K -> res B) d bs sh ov pf ld k fuel (w : world V) order shuffles c l m0 n m,
  new_one_process (inl d) bs sh 1 ov false 0 pf false = Ok (ld, Some k) -> pf <> Some 0%Z ->
  loader_iter fuel w ld order shuffles c = Some (gen_of l) -> Forall (arrives dump unpack) l ->
  iterate_there k fuel w ld 0 false order shuffles c = Some m0 -> runs_to dump unpack m0 n m ->
  new_loader (inl d) bs sh 0 ov false = Ok ld /\
  (exists rest, l = out m ++ rest) /\ (stat m = Stopped -> out m = l) /\ (forall x, stat m <> Raised x) /\
  (stat m = Running -> wstep dump m <> None \/ mstep unpack m <> None) /\ n <= 2 * (length l + k) + 4.
Proof. intros V B K. exact there_delivers. Qed.

(** The batches of sample ids and indices, as a program might collate them. *)
Definition ex_collate (b : list (sample Z)) : res (pyv Z) := Ok (PSeq false (map (fun s => Atom (sid s)) b)).
Definition ex_single (ov : bool) : loader := mkLoader (inl (ex_set ["a"; "b"; "c"] 1 false)) 2 false 0 ov false.
Example C77_example :
  new_one_process (inl (ex_set ["a"; "b"; "c"] 1 false)) 2 false 1 true false 0 None false = Ok (ex_single true, Some 2) /\
  loader_iter 0 ex_world (ex_single true) [2; 1; 0] [["c"; "b"; "a"]] (Some ex_collate) =
    Some (gen_of [PSeq false [Atom "c"; Atom "b"]; PSeq false [Atom "a"; Atom "b"]; PSeq false [Atom "a"]; PSeq false [Atom "a"]]) /\
  match iterate_there 2 0 ex_world (ex_single true) 0 false [2; 1; 0] [["c"; "b"; "a"]] (Some ex_collate) with
  | Some m0 => let m := run_worker_first dumps loads 40 m0 in
      stat m = Stopped /\ out m = [PSeq false [Atom "c"; Atom "b"]; PSeq false [Atom "a"; Atom "b"]; PSeq false [Atom "a"]; PSeq false [Atom "a"]]
  | None => False
  end.
Proof. split; [vm_compute; reflexivity|]. split; [vm_compute; reflexivity|]. vm_compute. split; reflexivity. Qed.

(** C77 is false for StreamTensors, which is what custom_collate makes, with a worker: no batch arrives, and there is no exception; with
    fewer batches than are asked for in advance (two) the iteration can go on to its end, otherwise it waits for ever. *)
Theorem C77_stream_tensors_refuted : forall (V W : Type) d bs sh ov pf ld k fuel (w : world V) order shuffles c (l : list (pyv W)) m0 n m,
  new_one_process (inl d) bs sh 1 ov false 0 pf false = Ok (ld, Some k) -> pf <> Some 0%Z ->
  loader_iter fuel w ld order shuffles c = Some (gen_of l) -> (forall b, In b l -> exists t nm mt, inside (Stream t nm mt) b) ->
  iterate_there k fuel w ld 0 false order shuffles c = Some m0 -> runs_to dumps loads m0 n m ->
  out m = [] /\ n <= 2 * k + 2 /\ (forall x, stat m <> Raised x) /\
  (length l < k -> stat m = Running -> wstep dumps m <> None \/ mstep loads m <> None) /\
  (k <= length l -> stat m = Running).
Proof. intros V W. exact there_loses. Qed.

(** The batches of custom_collate as values: the rows as a tensor with the names of the dimensions, and unused metadata. *)
Definition ex_collate_stream (b : list (sample Z)) : res (pyv Z) :=
  match custom_collate 0%Z b with
  | Ok r => Ok (Stream (mkTn [zlen (bd r); Z.of_nat (bw r)] (fun ix => nth (Z.to_nat (nth 1 ix 0%Z)) (nth (Z.to_nat (nth 0 ix 0%Z)) (bd r) []) 0%Z))
                       [Some BATCH; Some LENGTH] (Some (Proxy (Atom "") None)))
  | Err e => Err e
  end.
Example C77_example_stream_tensors :
  match loader_iter 0 ex_world (ex_single true) [2; 1; 0] [["c"; "b"; "a"]] (Some ex_collate_stream) with
  | Some (GCons (Stream t1 n1 _) (GCons (Stream t2 _ _) (GCons (Stream t3 _ _) (GCons (Stream t4 _ _) GStop)))) =>
      (n1, shp t1, shp t2, shp t3, shp t4) = ([Some BATCH; Some LENGTH], [2; 3]%Z, [2; 5]%Z, [1; 5]%Z, [1; 5]%Z)
  | _ => False
  end /\
  match iterate_there 2 0 ex_world (ex_single true) 0 false [2; 1; 0] [["c"; "b"; "a"]] (Some ex_collate_stream) with
  | Some m0 => let m := run_worker_first dumps loads 40 m0 in hangs dumps loads m /\ out m = []
  | None => False
  end.
Proof. split; [vm_compute; reflexivity|]. vm_compute. repeat split; reflexivity. Qed.

(** C77 is false with drop_last: never made. *)
Theorem C77_drop_last_refuted : forall src bs sh nw ov t pf pe, new_one_process src bs sh nw ov true t pf pe = Err ValueError.
Proof. exact drop_last_refused. Qed.
Example C77_example_drop_last :
  new_loader (inl (ex_set ["a"; "b"] 1 true)) 2 false 0 true true = Ok (mkLoader (inl (ex_set ["a"; "b"] 1 true)) 2 false 0 true true) /\
  new_one_process (inl (ex_set ["a"; "b"] 1 true)) 2 false 0 true true 0 None false = Err ValueError.
Proof. split; vm_compute; reflexivity. Qed.

(** C77 is false for a list of datasets with a worker, which would have to start workers itself: AssertionError, no batch. *)
Theorem C77_list_refuted : forall (V B K : Type) (dump : B -> res K) (unpack : K -> res B) d ds bs sh ov pf pe ld k fuel (w : world V) order shuffles c m0 n m,
  new_one_process (inr (d :: ds)) bs sh 1 ov false 0 pf pe = Ok (ld, Some k) -> pf <> Some 0%Z ->
  iterate_there k fuel w ld 0 pe order shuffles c = Some m0 -> runs_to dump unpack m0 n m ->
  out m = [] /\ stat m <> Stopped /\ (forall y, stat m = Raised y -> y = AssertionError) /\
  (stat m = Running -> wstep dump m <> None \/ mstep unpack m <> None) /\ n <= 2 * k + 4.
Proof. intros V B K. exact there_list. Qed.
Example C77_example_list : exists ld,
  new_one_process (inr [ex_set ["a"] 1 false; ex_set ["b"] 1 false]) 2 false 1 true false 0 None false = Ok (ld, Some 2) /\
  (exists x y g, loader_iter 0 ex_world ld [] [["a"]; ["b"]] (Some ex_collate) = Some (GCons x (GCons y g))) /\
  match iterate_there 2 0 ex_world ld 0 false [] [["a"]; ["b"]] (Some ex_collate) with
  | Some m0 => stat (run_worker_first dumps loads 40 m0) = Raised AssertionError
  | None => False
  end.
Proof. eexists. split; [vm_compute; reflexivity|]. split; [do 3 eexists; vm_compute; reflexivity|]. vm_compute. reflexivity. Qed.

(** C77 is false with a timeout for a single dataset: AssertionError with and without worker. *)
Theorem C77_timeout_refuted : forall (V B K : Type) (dump : B -> res K) (unpack : K -> res B) fuel (w : world V) ld t order shuffles (c : option (list (sample V) -> res B)),
  (0 < t)%Z -> iterate_here fuel w ld t false order shuffles c = Some (GRaise AssertionError) /\
  forall d ds k m0 n m, 0 < k -> lworkers ld = 0%Z -> loader_datasets w ld order = Ok (d :: ds) ->
    iterate_there k fuel w ld t false order shuffles c = Some m0 -> runs_to dump unpack m0 n m ->
    out m = [] /\ stat m <> Stopped /\ (forall y, stat m = Raised y -> y = AssertionError) /\
    (stat m = Running -> wstep dump m <> None \/ mstep unpack m <> None).
Proof.
  intros V B K dump unpack fuel w ld t order shuffles c Ht. split; [now apply timeout_here|]. intros d ds k m0 n m Hk HW HD HS HR.
  destruct (there_raises dump unpack k fuel w ld t false order shuffles c AssertionError m0 n m Hk) as [H1 [H2 [H3 [H4 _]]]];
    [exact (timeout_there fuel w ld t order shuffles c d ds Ht HW HD)|exact HS|exact HR|]. split; [exact H1|]. split; [exact H2|]. split; [exact H3|exact H4].
Qed.
(** C77 is false with persistent workers: without worker never made, with one and a single dataset ValueError when the iteration begins. *)
Theorem C77_persistent_refuted : forall (V B K : Type) (dump : B -> res K) (unpack : K -> res B) src bs sh ov t pf,
  (new_one_process src bs sh 0 ov false t pf true = Err ValueError) /\
  forall fuel (w : world V) ld order shuffles (c : option (list (sample V) -> res B)) d ds k m0 n m,
    (0 <= t)%Z -> 0 < k -> lworkers ld = 0%Z -> loader_datasets w ld order = Ok (d :: ds) ->
    iterate_there k fuel w ld t true order shuffles c = Some m0 -> runs_to dump unpack m0 n m ->
    out m = [] /\ stat m <> Stopped /\ (forall y, stat m = Raised y -> y = ValueError) /\
    (stat m = Running -> wstep dump m <> None \/ mstep unpack m <> None).
Proof.
  intros V B K dump unpack src bs sh ov t pf. split.
  { rewrite one_process_here. unfold new_loader. rewrite Bool.andb_false_l.
    destruct src as [d|l]; cbn [bind Z.ltb Z.compare]; rewrite !Bool.orb_true_r; reflexivity. }
  intros fuel w ld order shuffles c d ds k m0 n m Ht Hk HW HD HS HR.
  destruct (there_raises dump unpack k fuel w ld t true order shuffles c ValueError m0 n m Hk) as [H1 [H2 [H3 [H4 _]]]];
    [exact (persistent_there fuel w ld t order shuffles c d ds Ht HW HD)|exact HS|exact HR|]. split; [exact H1|]. split; [exact H2|]. split; [exact H3|exact H4].
Qed.
Example C77_example_options :
  new_one_process (inl (ex_set ["a"; "b"; "c"] 1 false)) 2 false 1 true false 5 None false = Ok (ex_single true, Some 2) /\
  new_one_process (inl (ex_set ["a"; "b"; "c"] 1 false)) 2 false 1 true false 0 None true = Ok (ex_single true, Some 2) /\
  match iterate_there 2 0 ex_world (ex_single true) 5 false [2; 1; 0] [["c"; "b"; "a"]] (Some ex_collate),
        iterate_there 2 0 ex_world (ex_single true) 0 true [2; 1; 0] [["c"; "b"; "a"]] (Some ex_collate) with
  | Some m1, Some m2 => stat (run_worker_first dumps loads 40 m1) = Raised AssertionError /\ stat (run_worker_first dumps loads 40 m2) = Raised ValueError
  | _, _ => False
  end.
Proof. split; [vm_compute; reflexivity|]. split; [vm_compute; reflexivity|]. vm_compute. split; reflexivity. Qed.

(** C77: more than one worker is refused. *)
Theorem C77_workers_refused : forall src bs sh nw ov dl t pf pe, (1 < nw)%Z -> new_one_process src bs sh nw ov dl t pf pe = Err ValueError.
Proof. intros src bs sh nw ov dl t pf pe H. unfold new_one_process. destruct (Z.ltb_spec 1 nw); [reflexivity|lia]. Qed.

(** C77 is false for a prefetch factor of 0, which the constructor accepts: AssertionError. *)
Theorem C77_prefetch_zero_refuted : forall (V B K : Type) (dump : B -> res K) (unpack : K -> res B) src bs sh ov ld,
  new_loader src bs sh 0 ov false = Ok ld ->
  new_one_process src bs sh 1 ov false 0 (Some 0%Z) false = Ok (ld, Some 0) /\
  forall fuel (w : world V) order shuffles (c : option (list (sample V) -> res B)) m0 n m,
    iterate_there 0 fuel w ld 0 false order shuffles c = Some m0 -> runs_to dump unpack m0 n m ->
    out m = [] /\ stat m = Raised AssertionError.
Proof.
  intros V B K dump unpack src bs sh ov ld H. split; [|intros fuel w; exact (there_zero dump unpack fuel w ld 0 false)].
  rewrite one_process_there by lia. rewrite H. reflexivity.
Qed.
Example C77_example_prefetch_zero :
  match iterate_there (K := pk Z) 0 0 ex_world (ex_single true) 0 false [2; 1; 0] [["c"; "b"; "a"]] (Some ex_collate) with
  | Some m => stat m = Raised AssertionError
  | None => False
  end.
Proof. vm_compute. reflexivity. Qed.

(* ---- assumptions *)
Print Assumptions C75_exact.
Print Assumptions C75_samples.
Print Assumptions C75_fields.
Print Assumptions C75_stream_tensors_refuted.
Print Assumptions C75_stream_tensor_refuted.
Print Assumptions C75_metadata_refuted.
Print Assumptions C75_collector_refuted.
Print Assumptions C75_copy.
Print Assumptions C75_copy_refuted.
Print Assumptions C76_delivers.
Print Assumptions C76_samples.
Print Assumptions C76_lost_refuted.
Print Assumptions C76_unreadable.
Print Assumptions C77_no_worker.
Print Assumptions C77_worker.
Print Assumptions C77_stream_tensors_refuted.
Print Assumptions C77_drop_last_refuted.
Print Assumptions C77_list_refuted.
Print Assumptions C77_timeout_refuted.
Print Assumptions C77_persistent_refuted.
Print Assumptions C77_workers_refused.
Print Assumptions C77_prefetch_zero_refuted.

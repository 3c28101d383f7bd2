(** Theorems of record: several worker processes at once (C81). *)

From Coq Require Import String List ZArith Bool Lia.
From Verif Require Import Py Meta Pad Data Workers WorkersSpec WorkersMany WorkersManySpec WorkersManyProofs WorkersRoundsProofs DataSpec PropertiesData.
Import ListNotations.
Open Scope string_scope.
Open Scope list_scope.

Open Scope nat_scope.

(** C81: in every execution the rounds that the main process puts together are the rounds of the loaders in order, however fast the workers
    are; the iteration ends where the loaders end, with their exception if there is one; the program never waits for ever and the
    number of steps is bounded. [longest] is false for zip (drop_last) and true for itertools.zip_longest. *)
Theorem C81_rounds : forall (A K : Type) (dump : A -> res K) (unpack : K -> res A) longest prefetch gs ss,
  0 < prefetch -> Forall2 (fun g s => gives g (fst s) (snd s)) gs ss -> Forall (fun s => Forall (arrives dump unpack) (fst s)) ss ->
  exists R E, ends_at longest ss R E /\
  forall n s, goes_to dump unpack longest (begin prefetch gs) n s ->
  (exists r, r <= R /\ rounds s = map (round_of ss) (seq 0 r) /\ (mstat s <> Running -> r = R)) /\
  (mstat s = Stopped -> E = None) /\ (forall x, mstat s = Raised x -> E = Some x) /\
  (mstat s = Running -> (exists i, worker_step dump i s <> None) \/ main_step unpack longest s <> None) /\
  n <= list_sum (map (fun s => 2 * (length (fst s) + prefetch) + 4) ss) + (length ss + 1) * (R + 1).
Proof.
  intros A K dump unpack longest prefetch gs ss HK HS HA. destruct (ends_somewhere longest ss) as [R [E HE]]. exists R, E. split; [exact HE|].
  intros n s HR. exact (many_rounds dump unpack longest prefetch gs ss R E n s HK HS HA HE HR).
Qed.

(** C81: where loaders that raise nothing end: the longest or the shortest decides. *)
Theorem C81_ends : forall (A : Type) longest (ls : list (list A)) R E, ls <> [] ->
  ends_at longest (map (fun l => (l, None)) ls) R E ->
  E = None /\ (longest = true -> R = list_max (map (@length A) ls)) /\
  (longest = false -> Forall (fun l => R <= length l) ls /\ Exists (fun l => length l = R) ls).
Proof. intros A. exact ends_plain. Qed.

(** An execution by a schedule: Some i is a step of worker i, None one of the main process; steps that are not possible are skipped. *)
Fixpoint follow {A K} (dump : A -> res K) (unpack : K -> res A) (longest : bool) (sched : list (option nat)) (s : many A K) : many A K :=
  match sched with
  | [] => s
  | o :: t => follow dump unpack longest t
                (match match o with Some i => worker_step dump i s | None => main_step unpack longest s end with Some s' => s' | None => s end)
  end.
Lemma follow_goes {A K} (dump : A -> res K) (unpack : K -> res A) longest sched : forall s s0 n,
  goes_to dump unpack longest s0 n s -> exists n', goes_to dump unpack longest s0 n' (follow dump unpack longest sched s).
Proof.
  induction sched as [|o t IH]; intros s s0 n H; [exists n; exact H|]. cbn [follow]. destruct o as [i|].
  - destruct (worker_step dump i s) as [s'|] eqn:E; [|exact (IH _ _ _ H)]. exact (IH _ _ _ (go_worker _ _ _ _ _ _ _ _ H E)).
  - destruct (main_step unpack longest s) as [s'|] eqn:E; [|exact (IH _ _ _ H)]. exact (IH _ _ _ (go_main _ _ _ _ _ _ _ H E)).
Qed.

(** Two schedules: workers first, and the main process whenever it can. *)
Definition ex_gens (e : gen nat) : list (gen nat) := [gen_of [1; 2; 3]; GCons 10 e; gen_of [20; 21]].
Definition ex_eager : list (option nat) := concat (repeat [Some 2; Some 0; Some 1] 8) ++ concat (repeat [None; Some 0; Some 1; Some 2] 40).
Definition ex_slow : list (option nat) := concat (repeat [None; None; None; None; Some 0; None; Some 1; None; Some 2] 40).
Definition ex_dump (a : nat) : res nat := Ok (a + 100).
Definition ex_load (k : nat) : res nat := Ok (k - 100).
Example C81_example :
  let run longest e sched := let s := follow ex_dump ex_load longest sched (begin 2 (ex_gens e)) in (rounds s, mstat s) in
  let r0 := [Some 1; Some 10; Some 20] in
  run true GStop ex_eager = ([r0; [Some 2; None; Some 21]; [Some 3; None; None]], Stopped) /\
  run true GStop ex_slow = ([r0; [Some 2; None; Some 21]; [Some 3; None; None]], Stopped) /\
  run false GStop ex_eager = ([r0], Stopped) /\ run false GStop ex_slow = ([r0], Stopped) /\
  run true (GRaise KeyError) ex_eager = ([r0], Raised KeyError) /\ run false (GRaise KeyError) ex_slow = ([r0], Raised KeyError) /\
  ends_at true [([1; 2; 3], None); ([10], Some KeyError); ([20; 21], None)] 1 (Some KeyError).
Proof.
  cbv zeta. split; [vm_compute; reflexivity|]. split; [vm_compute; reflexivity|]. split; [vm_compute; reflexivity|].
  split; [vm_compute; reflexivity|]. split; [vm_compute; reflexivity|]. split; [vm_compute; reflexivity|].
  split.
  - intros r Hr. assert (r = 0) by lia. subst r. split; [|apply Exists_cons_hd; cbn; lia].
    constructor; [left; cbn; lia|]. constructor; [left; cbn; lia|]. constructor; [left; cbn; lia|constructor].
  - left. exists [([1; 2; 3], None)], ([10], Some KeyError), [([20; 21], None)]. split; [reflexivity|].
    split; [constructor; [left; cbn; lia|constructor]|]. split; [|reflexivity].
    intros [H|[_ H]]; [cbn in H; lia|discriminate].
Qed.

(** C81: so MultiStreamDataLoader with worker processes merges what it merges without them (loader_batches of C47), batch by batch. *)
Theorem C81_merged : forall (V K : Type) (dump : list (sample V) -> res K) unpack prefetch (w : world V) ds drop_last shuffles L E n s,
  0 < prefetch ->
  (forall d sh l e, In (d, sh) (zip ds shuffles) -> gives (get_streams w d sh) l e -> Forall (arrives dump unpack) l) ->
  gives (merged w ds drop_last shuffles) L E ->
  goes_to dump unpack (negb drop_last) (begin prefetch (map (fun p => get_streams w (fst p) (snd p)) (zip ds shuffles))) n s ->
  (exists rest, L = map (fun parts => List.concat (somes parts)) (rounds s) ++ rest) /\
  (mstat s = Stopped -> L = map (fun parts => List.concat (somes parts)) (rounds s) /\ E = None) /\
  (forall x, mstat s = Raised x -> L = map (fun parts => List.concat (somes parts)) (rounds s) /\ E = Some x) /\
  (mstat s = Running -> (exists i, worker_step dump i s <> None) \/ main_step unpack (negb drop_last) s <> None).
Proof. intros V K. exact many_merged. Qed.

Definition ex_parts := [ex_set ["a"; "c"] 1 false; ex_set ["b"] 1 false].
Definition ex_start : many (list (sample Z)) (list (sample Z)) :=
  begin 2 (map (fun p => get_streams ex_world (fst p) (snd p)) (zip ex_parts [["a"; "c"]; ["b"]])).
Example C81_example_merged :
  let s := follow (fun x => Ok x) (fun x => Ok x) true ex_slow ex_start in
  mstat s = Stopped /\ (2 <? length (rounds s)) = true /\
  gives (merged ex_world ex_parts false [["a"; "c"]; ["b"]]) (map (fun parts => List.concat (somes parts)) (rounds s)) None /\
  map (fun parts => map sid (List.concat (somes parts))) (firstn 3 (rounds s)) = [["a"; "b"]; ["a"; "b"]; ["a"]].
Proof. vm_compute. split; [reflexivity|]. split; [reflexivity|]. split; [|reflexivity]. repeat (apply gives_cons || apply gives_stop). Qed.

(* ---- assumptions *)
Print Assumptions C81_rounds.
Print Assumptions C81_ends.
Print Assumptions C81_merged.

(** Model of a torch DataLoader with one worker process, as MultiStreamDataLoader and MultiStreamOneProcessDataLoader use it
    (dreamstream/data/stream_dataset.py 442-452, 481-484, 513-589).

    Modelled of torch (torch/utils/data/dataloader.py, _utils/worker.py): the checks of DataLoader.__init__ for an
    IterableDataset with batch_size=None, the main process of _MultiProcessingDataLoaderIter with one worker, and the worker
    loop. The two processes run at the same time: [wstep] and [mstep] are their steps, an execution is any interleaving.
    Simplifications: a result is pickled in the step of the worker that computes it (torch does it in a thread of the worker,
    in the same order); workers do not crash; the main process always asks for the next item; timeouts never pass;
    pin_memory, worker_init_fn and devices are left out. *)

From Coq Require Import String List ZArith Bool Lia.
From Verif Require Import Py Meta Pad Data.
Import ListNotations.

Section Machine.
Context {A K : Type} (dump : A -> res K) (unpack : K -> res A).

(** What the worker puts into the result queue for one task: a pickled item, an exception of the dataset, or the end. *)
Inductive payload : Type := Data (k : K) | Exc (e : exn) | End_.

(** How the iteration of the main process stands. *)
Inductive status : Type := Running | Stopped | Raised (e : exn).

Record machine : Type := mkM {
  left : gen A;                          (* what the iterator of the dataset has yet to give (in the worker) *)
  ended : bool;                          (* iteration_end of the worker *)
  tasks : list nat;                      (* the queue of task numbers *)
  results : list (nat * payload);        (* the queue of results *)
  rcvd : nat;                            (* _rcvd_idx: the number of the task expected next *)
  sent : nat;                            (* _send_idx *)
  stored : list (nat * (A + exn));       (* _task_info: results that came before their turn *)
  avail : bool;                          (* _workers_status[0] *)
  out : list A;                          (* what the program got so far *)
  stat : status
}.

(** _reset: as many tasks as prefetch_factor are given out at the start. *)
Definition start (prefetch : nat) (g : gen A) : machine :=
  mkM g false (seq 0 prefetch) [] 0 prefetch [] true [] Running.

(** The worker loop: take a task, fetch an item and send it. An item that cannot be pickled is lost (multiprocessing.Queue prints a
    traceback and goes on). After the end tasks are ignored. *)
Definition wstep (m : machine) : option machine :=
  match tasks m with
  | [] => None
  | i :: ts =>
      if ended m then Some (mkM (left m) true ts (results m) (rcvd m) (sent m) (stored m) (avail m) (out m) (stat m))
      else
        let '(g, e, r) := match left m with
                          | GStop => (GStop, true, [(i, End_)])
                          | GRaise x => (GStop, false, [(i, Exc x)])
                          | GCons a g => (g, false, match dump a with Ok k => [(i, Data k)] | Err _ => [] end)
                          end in
        Some (mkM g e ts (results m ++ r) (rcvd m) (sent m) (stored m) (avail m) (out m) (stat m))
  end.

(** _process_data: the next task is given out (if the worker is still there), an exception is raised again. *)
Definition process (m : machine) (rest : list (nat * payload)) (st : list (nat * (A + exn))) (x : A + exn) : machine :=
  let ts := if avail m then tasks m ++ [sent m] else tasks m in
  let s := if avail m then S (sent m) else sent m in
  match x with
  | inl a => mkM (left m) (ended m) ts rest (S (rcvd m)) s st (avail m) (out m ++ [a]) (stat m)
  | inr e => mkM (left m) (ended m) ts rest (S (rcvd m)) s st (avail m) (out m) (Raised e)
  end.

Definition set_rcvd (m : machine) (n : nat) : machine :=
  mkM (left m) (ended m) (tasks m) (results m) n (sent m) (stored m) (avail m) (out m) (stat m).
Definition set_stat (m : machine) (s : status) : machine :=
  mkM (left m) (ended m) (tasks m) (results m) (rcvd m) (sent m) (stored m) (avail m) (out m) s.

Fixpoint find_stored (n : nat) (l : list (nat * (A + exn))) : option (A + exn) :=
  match l with [] => None | (i, x) :: t => if Nat.eqb i n then Some x else find_stored n t end.
Definition drop_stored (n : nat) (l : list (nat * (A + exn))) : list (nat * (A + exn)) :=
  filter (fun p => negb (Nat.eqb (fst p) n)) l.

(** One turn of the loop of _next_data; None while it waits for the queue or when the iteration is over. *)
Definition mstep (m : machine) : option machine :=
  match stat m with
  | Stopped | Raised _ => None
  | Running =>
      if Nat.leb (sent m) (rcvd m) then Some (set_stat m Stopped)                        (* nothing is outstanding *)
      else match find_stored (rcvd m) (stored m) with
           | Some x => Some (process m (results m) (drop_stored (rcvd m) (stored m)) x)
           | None =>
               if negb (avail m) then Some (set_rcvd m (S (rcvd m)))                     (* a task of a worker that ended *)
               else match results m with
                    | [] => None
                    | (i, p) :: rest =>
                        match p with
                        | End_ => Some (mkM (left m) (ended m) (tasks m) rest (rcvd m) (sent m) (stored m) false (out m) Running)
                        | Data _ | Exc _ =>
                            match (match p with Data k => match unpack k with Ok a => Ok (inl a) | Err e => Err e end
                                              | Exc e => Ok (inr e) | End_ => Err Undefined end) with
                            | Err e => Some (set_stat (mkM (left m) (ended m) (tasks m) rest (rcvd m) (sent m) (stored m) true (out m) Running) (Raised e))
                            | Ok x => if Nat.eqb i (rcvd m) then Some (process m rest (stored m) x)
                                      else Some (mkM (left m) (ended m) (tasks m) rest (rcvd m) (sent m) (stored m ++ [(i, x)]) true (out m) Running)
                            end
                        end
                    end
           end
  end.

(** Executions of [n] steps. *)
Inductive runs_to (m : machine) : nat -> machine -> Prop :=
| run_nil : runs_to m 0 m
| run_worker n m1 m2 : runs_to m n m1 -> wstep m1 = Some m2 -> runs_to m (S n) m2
| run_main n m1 m2 : runs_to m n m1 -> mstep m1 = Some m2 -> runs_to m (S n) m2.

End Machine.
Arguments machine A K : clear implicits.
Arguments payload K : clear implicits.

(* ---------- the loaders ---------- *)

Open Scope Z_scope.

(** torch.utils.data.DataLoader.__init__ for an IterableDataset with batch_size=None and shuffle=False and at most one worker: None for no
    worker, or the number of tasks given out in advance. A factor that is not given is 2 with a worker. *)
Definition new_dataloader (num_workers timeout : Z) (prefetch : option Z) (persistent drop_last : bool) : res (option nat) :=
  if num_workers <? 0 then Err ValueError
  else if timeout <? 0 then Err ValueError
  else if (num_workers =? 0) && (match prefetch with Some _ => true | None => false end) then Err ValueError
  else if match prefetch with Some p => p <? 0 | None => false end then Err ValueError
  else if persistent && (num_workers =? 0) then Err ValueError
  else if drop_last then Err ValueError
  else Ok (if num_workers =? 0 then None else Some (match prefetch with Some p => Z.to_nat p | None => 2%nat end)).

Section Loaders.
Context {V B : Type}.

(** stream_dataset.py 514-585: MultiStreamOneProcessDataLoader.__init__. *)
Definition new_one_process (source : dataset + list dataset) (batch_size : Z) (shuffle : bool) (num_workers : Z) (overlapping drop_last : bool)
    (timeout : Z) (prefetch : option Z) (persistent : bool) : res (loader * option nat) :=
  if 1 <? num_workers then Err ValueError                                                (* 553-554 *)
  else
    do ld <- new_loader source batch_size shuffle 0 overlapping drop_last;               (* 556-570 *)
    do dl <- new_dataloader num_workers timeout prefetch persistent drop_last;           (* 572-585 *)
    Ok (ld, dl).

(** stream_dataset.py 442-452, 481-510 within a process: the DataLoaders of the parts are made and started when the iteration begins. A
    DataLoader without worker refuses a timeout when it is started; one with a worker cannot be started in a process that is itself a
    worker ("daemonic processes are not allowed to have children"). *)
Definition inner_iter (in_worker : bool) (fuel : nat) (w : world V) (ld : loader) (timeout : Z) (persistent : bool) (order : list nat)
    (shuffles : list (list string)) (collate_fn : option (list (sample V) -> res B)) : option (gen B) :=
  match loader_datasets w ld order with
  | Err e => Some (GRaise e)
  | Ok [] => loader_iter fuel w ld order shuffles collate_fn
  | Ok (_ :: _) =>
      match new_dataloader (if lworkers ld =? 0 then 0 else 1) timeout None persistent false with
      | Err e => Some (GRaise e)
      | Ok None => if 0 <? timeout then Some (GRaise AssertionError) else loader_iter fuel w ld order shuffles collate_fn
      | Ok (Some _) => if in_worker then Some (GRaise AssertionError) else loader_iter fuel w ld order shuffles collate_fn
      end
  end.

(** stream_dataset.py 587-589 with no worker: the batches come from the same process; a timeout is refused. *)
Definition iterate_here (fuel : nat) (w : world V) (ld : loader) (timeout : Z) (persistent : bool) (order : list nat)
    (shuffles : list (list string)) (collate_fn : option (list (sample V) -> res B)) : option (gen B) :=
  if 0 <? timeout then Some (GRaise AssertionError) else inner_iter false fuel w ld timeout persistent order shuffles collate_fn.

(** stream_dataset.py 587-589 with a worker: the start of the machine. torch asserts a positive prefetch factor when the iteration
    begins. *)
Definition iterate_there {K : Type} (prefetch fuel : nat) (w : world V) (ld : loader) (timeout : Z) (persistent : bool) (order : list nat)
    (shuffles : list (list string)) (collate_fn : option (list (sample V) -> res B)) : option (machine B K) :=
  match inner_iter true fuel w ld timeout persistent order shuffles collate_fn with
  | None => None
  | Some g => Some (match prefetch with O => set_stat (start prefetch g) (Raised AssertionError) | S _ => start prefetch g end)
  end.

End Loaders.

(** Model of what MultiStreamDataLoader makes of the arguments for the worker processes (dreamstream/data/stream_dataset.py
    420-465, 481-493): the keywords of the DataLoaders, one per dataset, and worker_init_fn.

    Left out: pin_memory, multiprocessing_context and devices. The checks of DataLoader.__init__ are in Workers.v. *)

From Coq Require Import String List ZArith Bool Lia.
From Verif Require Import Py Meta Named Pad Data Workers.
Import ListNotations.
Open Scope Z_scope.

Record dl_args : Type := mkDl { aworkers : Z; atimeout : Z; aprefetch : option Z; apersistent : bool }.

(** self.num_workers (stream_dataset.py 422, 431-434). *)
Definition own_workers (source : dataset + list dataset) (num_workers : Z) : Z :=
  match source with inl _ => num_workers | inr l => zlen l end.

(** stream_dataset.py 442-452. *)
Definition loader_kwargs (source : dataset + list dataset) (num_workers timeout : Z) (prefetch : option Z) (persistent : bool) : dl_args :=
  mkDl (if own_workers source num_workers =? 0 then 0 else 1) timeout
       (if 0 <? num_workers then prefetch else None)                          (* 449: the argument, not the attribute *)
       persistent.

(** stream_dataset.py 379-452 (__init__). *)
Definition new_multi (source : dataset + list dataset) (batch_size : Z) (shuffle : bool) (num_workers : Z) (overlapping drop_last : bool)
    (timeout : Z) (prefetch : option Z) (persistent : bool) : res (loader * dl_args) :=
  do ld <- new_loader source batch_size shuffle num_workers overlapping drop_last;
  Ok (ld, loader_kwargs source num_workers timeout prefetch persistent).

(** stream_dataset.py 454-465: what worker_init_fn is called with in worker [k] of DataLoader number [i]. *)
Definition init_id (i k : Z) : Z := k + i.

(** A DataLoader: the number of tasks given out in advance if it has a worker, and the calls of worker_init_fn. *)
Record opened : Type := mkOpened { oprefetch : option nat; oinit : list Z }.

(** stream_dataset.py 481-484: torch calls the function once in every worker, with the number of the worker. *)
Definition open_loader (a : dl_args) (i : nat) : res opened :=
  do p <- new_dataloader (aworkers a) (atimeout a) (aprefetch a) (apersistent a) false;
  Ok (mkOpened p (map (init_id (Z.of_nat i)) (py_range 0 (aworkers a) 1))).

(** zip and zip_longest (489, 493) call iter(): torch asserts that there is no timeout without worker, and a positive prefetch
    factor with one. *)
Definition start_loader (a : dl_args) (o : opened) : res opened :=
  match oprefetch o with
  | None => if 0 <? atimeout a then Err AssertionError else Ok o
  | Some O => Err AssertionError
  | Some (S _) => Ok o
  end.

(** stream_dataset.py 467-493 up to the first batch. *)
Definition open_loaders {V} (w : world V) (ld : loader) (a : dl_args) (order : list nat) : res (list opened) :=
  do ds <- loader_datasets w ld order;
  do os <- mapM (open_loader a) (seq 0 (length ds));
  mapM (start_loader a) os.

(** Model of dreamstream/data/stream_dataset_demo.py.

    Simplifications:
    - examples are lists of chunks of any type;
    - worker id and seed (59-61), which are only carried along, are left out of the items, as are logging and printing;
    - the outcome of np.argsort, random.shuffle and random.sample is an argument;
    - a torch DataLoader with batch_size=None and at most one worker yields the items of its dataset in order. *)

From Coq Require Import String List ZArith Bool Lia.
From Verif Require Import Py Meta Pad Data.
Import ListNotations.
Open Scope Z_scope.

(** stream_dataset_demo.py 19-41 (partition_by_sum): as in stream_dataset.py (the loop, 35-39, is the same) but for the assertion. *)
Definition demo_partition (values : list Z) (num_partitions : Z) (shuffle sort : bool) (sorted shuffled : list nat)
  : res (list (list Z) * list (list nat)) :=
  if shuffle && sort then Err AssertionError                                    (* 20 *)
  else
    let indices := if sort then sorted                                          (* 24-25 *)
                   else if shuffle then shuffled                                (* 29-30 *)
                   else seq 0 (length values) in                                (* 27 *)
    let n := Z.to_nat num_partitions in
    partition_loop values indices (repeat [] n) (repeat [] n) (repeat 0 n).     (* 32-39 *)

(** string.ascii_letters.upper(): the capitals, twice (123). *)
Definition worker_names : string := "ABCDEFGHIJKLMNOPQRSTUVWXYZABCDEFGHIJKLMNOPQRSTUVWXYZ".

Section Demo.
Context {X : Type}.

(** Attributes of a MyIterableDataset (48-55). *)
Record dset : Type := mkDset {
  d_list : list (list X); d_batch : Z; d_shuffle : bool; d_drop : bool; d_name : option string
}.

(** stream_dataset_demo.py 57-63 (process_data): every chunk with the name of the dataset. *)
Definition demo_process (d : dset) (x : list X) : gen (X * option string) := gen_of (map (fun c => (c, d_name d)) x).

(** stream_dataset_demo.py 65-66. *)
Definition demo_stream (d : dset) (l : list (list X)) : gen (X * option string) := chain_gen (map (demo_process d) l).

(** stream_dataset_demo.py 68-94 (get_streams, __iter__). The items are tuples, so the filter (89) removes the fill values only. *)
Definition demo_streams (d : dset) (shuffled : list (list X)) : gen (list (X * option string)) :=
  gres (let l := if d_shuffle d then shuffled else d_list d in                  (* 76-79 *)
        do parts <- mapM (fun i => list_slice l (mkSlice (Some i) None (Some (d_batch d)))) (py_range 0 (d_batch d) 1);   (* 82 *)
        let streams := map (demo_stream d) parts in                             (* 84 *)
        Ok (if d_drop d then zip_gens streams                                   (* 85-86 *)
            else gmap somes (zip_longest streams))).                            (* 87-89 *)

(** stream_dataset_demo.py 96-101 (custom_collate): the chunks and the names; zip of no items has no second element (99). *)
Definition demo_collate (b : list (X * option string)) : res (list X * list (option string)) :=
  match b with
  | [] => Err IndexError
  | _ => Ok (map fst b, map snd b)
  end.

(** stream_dataset_demo.py 110-114: the first n of max_workers, max_workers - 1, ..., 1 that divides batch_size. *)
Fixpoint first_divisor (batch_size : Z) (n : nat) : option Z :=
  match n with
  | O => None
  | S k => if batch_size mod (Z.of_nat n) =? 0 then Some (Z.of_nat n) else first_divisor batch_size k
  end.

(** stream_dataset_demo.py 103-130 (split_datasets). [order] is the outcome of argsort. *)
Definition split_datasets (data_list : list (list X)) (batch_size max_workers : Z) (order : list nat) : res (list dset) :=
  let mw := if batch_size <? max_workers then batch_size else max_workers in    (* 106-108 *)
  let mw := match first_divisor batch_size (Z.to_nat mw) with Some n => n | None => mw end in   (* 110-114 *)
  do '(_, idxs) <- demo_partition (map zlen data_list) mw false true order [];  (* 118-119 *)
  do parts <- mapM (mapM (fun i => match nth_error data_list i with Some x => Ok x | None => Err IndexError end)) idxs;   (* 120 *)
  if mw =? 0 then Err ZeroDivisionError                                         (* 122 *)
  else
    let per := batch_size / mw in
    mapM (fun i => match nth_error parts (Z.to_nat i), String.get (Z.to_nat i) worker_names with
                   | Some l, Some c => Ok (mkDset l per false false (Some (String c EmptyString)))
                   | _, _ => Err IndexError
                   end) (py_range 0 mw 1).                                      (* 125-128 *)

(** stream_dataset_demo.py 133-180 (MultiStreamDataLoader): the batches of all datasets merged (160-170, 178), then collated (179). [shuffles] are the
    outcomes of random.sample. *)
Definition demo_loader {B} (ds : list dset) (drop_last : bool) (collate_fn : list (X * option string) -> res B)
    (shuffles : list (list (list X))) : gen B :=
  let loaders := map (fun p => demo_streams (fst p) (snd p)) (zip ds shuffles) in
  gmapM collate_fn
    (if drop_last then gmap (fun parts => List.concat parts) (zip_gens loaders)
     else gmap (fun parts => List.concat (somes parts)) (zip_longest loaders)).

End Demo.
Arguments dset X : clear implicits.

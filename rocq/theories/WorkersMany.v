(** Model of several DataLoaders with one worker process each, read in turn by the main process, as MultiStreamDataLoader does
    (dreamstream/data/stream_dataset.py 481-498).

    zip and itertools.zip_longest call iter() on every DataLoader when they are made, so all workers run from the start, and the main
    process calls next() on one of them at a time, from the first to the last.  An execution is any interleaving of the steps of
    the main process and of the workers (Workers.v).  What follows in 498-506 (chaining of the parts, make_streams_synchronous and
    collate_fn) happens in the main process and is a function of the parts (Data.v). *)

From Coq Require Import String List ZArith Bool Lia.
From Verif Require Import Py Meta Named Pad Data Workers.
Import ListNotations.

Section Many.
Context {A K : Type} (dump : A -> res K) (unpack : K -> res A).

Record many : Type := mkX {
  machs : list (machine A K);            (* one per DataLoader *)
  dead : list bool;                      (* zip_longest: the iterator was exhausted before (ittuple[i] is NULL) *)
  turn : nat;                            (* the iterator that is asked now *)
  part : list (option A);                (* what the others before it have given in this round; None: the fill value *)
  rounds : list (list (option A));       (* the rounds that are complete *)
  mstat : status
}.

(** 481-493. *)
Definition begin (prefetch : nat) (gs : list (gen A)) : many :=
  mkX (map (start prefetch) gs) (map (fun _ => false) gs) 0 [] [] Running.

(** A step of worker number [i]. *)
Definition worker_step (i : nat) (s : many) : option many :=
  match nth_error (machs s) i with
  | None => None
  | Some m => match wstep dump m with
              | None => None
              | Some m' => Some (mkX (list_set (machs s) i m') (dead s) (turn s) (part s) (rounds s) (mstat s))
              end
  end.

(** A step of the main process in zip ([longest] = false, 489) or itertools.zip_longest (true, 493): a complete round is handed over, an
    exhausted iterator is skipped, or the next turn of the loop in next() of the iterator is made. None while that loop waits. *)
Definition main_step (longest : bool) (s : many) : option many :=
  match mstat s with
  | Stopped | Raised _ => None
  | Running =>
      match nth_error (machs s) (turn s) with
      | None => match machs s with
                | [] => Some (mkX [] (dead s) (turn s) (part s) (rounds s) Stopped)
                | _ => Some (mkX (machs s) (dead s) 0 [] (rounds s ++ [part s]) Running)
                end
      | Some m =>
          if nth (turn s) (dead s) false
          then Some (mkX (machs s) (dead s) (S (turn s)) (part s ++ [None]) (rounds s) Running)
          else match mstep unpack m with
               | None => None
               | Some m' =>
                   let ms := list_set (machs s) (turn s) m' in
                   match stat m' with
                   | Raised e => Some (mkX ms (dead s) (turn s) (part s) (rounds s) (Raised e))
                   | Stopped =>
                       if longest
                       then let d := list_set (dead s) (turn s) true in
                            if forallb (fun b => b) d then Some (mkX ms d (turn s) (part s) (rounds s) Stopped)
                            else Some (mkX ms d (S (turn s)) (part s ++ [None]) (rounds s) Running)
                       else Some (mkX ms (dead s) (turn s) (part s) (rounds s) Stopped)
                   | Running =>
                       match nth_error (out m') (length (out m)) with                  (* next() has returned an item *)
                       | Some a => Some (mkX ms (dead s) (S (turn s)) (part s ++ [Some a]) (rounds s) Running)
                       | None => Some (mkX ms (dead s) (turn s) (part s) (rounds s) Running)
                       end
                   end
               end
      end
  end.

(** Executions of [n] steps. *)
Inductive goes_to (longest : bool) (s : many) : nat -> many -> Prop :=
| go_nil : goes_to longest s 0 s
| go_worker i n s1 s2 : goes_to longest s n s1 -> worker_step i s1 = Some s2 -> goes_to longest s (S n) s2
| go_main n s1 s2 : goes_to longest s n s1 -> main_step longest s1 = Some s2 -> goes_to longest s (S n) s2.

End Many.
Arguments many A K : clear implicits.

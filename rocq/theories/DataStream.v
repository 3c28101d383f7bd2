(** Model of the loop of an example program over the batches of a data loader: examples/wav2letter.py 54-58 with the
    batches of a MultiStreamDataLoader (stream_dataset.py 467-510) that uses the dataset's custom_collate (256-274) as
    collate function. The repository contains the two parts but no program that joins them; the loop is that of
    wav2letter.py. *)

From Coq Require Import String List ZArith Bool Lia.
From Verif Require Import Py Meta Pad Conv Stack Collector Program Data.
Import ListNotations.

Section DataStream.
Context {V : Type}.

(** wav2letter.py 55-58 over a generator: an exception of the generator ends the loop. *)
Fixpoint stream_gen (Ls : list (layer V)) (sts : list (buffers V)) (c : collector V) (g : gen (batch V)) : res (collector V) :=
  match g with
  | GStop => Ok c
  | GRaise e => Err e
  | GCons x t => do '(y, sts1) <- stack_call Ls sts x;                        (* 56 *)
                 match update c [InBatch y] with                              (* 58 *)
                 | (c1, None) => stream_gen Ls sts1 c1 t
                 | (_, Some e) => Err e
                 end
  end.

(** stream_dataset.py 467-510 and wav2letter.py 52-58; [z] is the zero column. None: more fuel is needed (Data.v). *)
Definition stream_loader (fuel : nat) (w : world V) (ld : loader) (order : list nat) (shuffles : list (list string))
    (Ls : list (layer V)) (z : V) : option (res (collector V)) :=
  match loader_iter fuel w ld order shuffles (Some (custom_collate z)) with
  | None => None
  | Some g => Some (stream_gen Ls (fresh Ls) new_collector g)
  end.

End DataStream.

(** Model of the complete use of the library as in examples/wav2letter.py 37-60 and tests/patches/test_conv.py:
    pad_full_sequence, unpad_sequence, split of each stream, pad_stream_tensor of the chunks of each step, patched model
    in online mode, OutputCollector. *)

From Coq Require Import String List ZArith Bool Lia.
From Verif Require Import Py Meta Pad Conv Stack Collector.
Import ListNotations.

Section Pipeline.
Context {V : Type}.

(** overrides.py 124-139 (split) of a chunk without batch dimension along its length. *)
Definition split_single (x : single V) (sz : ssize) : res (list (single V)) :=
  do ts <- tensor_split sz (sd x);                        (* 132 *)
  do ms <- split_length (sm x) sz;                        (* 133 *)
  Ok (map (fun p => mkSingle (fst p) (snd p)) (zip ts ms)).

(** wav2letter.py 38-41: unpad, then split every stream. *)
Definition chop (x : batch V) (cuts : list ssize) : res (list (list (single V))) :=
  do xs <- unpad_sequence x;
  mapM (fun p => split_single (fst p) (snd p)) (zip xs cuts).

(** wav2letter.py 46-58: batches of chunks through the model. *)
Definition stream_through (Ls : list (layer V)) (z : V) (steps : list (list (single V))) : res (list (batch V)) :=
  do xs <- mapM (pad_stream_tensor z) steps;              (* 50 *)
  do '(ys, _) <- stack_run Ls (fresh Ls) xs;              (* 56 *)
  Ok ys.

End Pipeline.

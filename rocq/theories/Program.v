(** Model of the example program examples/wav2letter.py 12-69: random chunk sizes, random batching, online model,
    collection of the outputs.

    The random numbers are inputs: [draws] is what random.randint returns, call after call, [coins] what the test
    `random.random() < 0.75` gives, call after call. A result of None says that more random numbers are needed, not that
    Python stops. The network is a list of layers (Stack.v): the nested nn.Sequential of torchaudio's Wav2Letter and its
    closing log_softmax over the features, which works on every column on its own. The sequences are lists of columns
    (Pad.v), so align_to (37, 50) does nothing here. Printing (63-69) is not modelled. *)

From Coq Require Import String List ZArith Bool Lia.
From Verif Require Import Py Meta Pad Conv Stack Collector Pipeline.
Import ListNotations.
Open Scope Z_scope.

(** wav2letter.py 12-20 (random_chunks), with the chunks so far; gives the chunks and the unused draws. *)
Fixpoint random_chunks (full : Z) (chunks : list Z) (draws : list Z) : option (list Z * list Z) :=
  let remaining := full - zsum chunks in                                      (* 14, 17-18 *)
  if 0 <? remaining                                                           (* 15 *)
  then match draws with
       | [] => None
       | d :: t => random_chunks full (chunks ++ [Z.min d remaining]) t       (* 16 *)
       end
  else Some (chunks, draws).

(** wav2letter.py 39-41: the chunk sizes of all sequences, one after the other. *)
Fixpoint all_chunks (fulls : list Z) (draws : list Z) : option (list (list Z)) :=
  match fulls with
  | [] => Some []
  | n :: t => match random_chunks n [] draws with
              | None => None
              | Some (c, rest) => match all_chunks t rest with None => None | Some cs => Some (c :: cs) end
              end
  end.

Section Program.
Context {A : Type}.

(** wav2letter.py 43-44 (remaining_chunks). *)
Definition remaining_chunks (data : list (string * list A)) : Z := zsum (map (fun q => zlen (snd q)) data).

(** wav2letter.py 48: the batch, what is left of the data, and the unused coins. *)
Fixpoint one_round (data : list (string * list A)) (coins : list bool) : option (list A * list (string * list A) * list bool) :=
  match data with
  | [] => Some ([], [], coins)
  | (i, []) :: t =>
      match one_round t coins with
      | None => None
      | Some (b, rest, cs) => Some (b, (i, []) :: rest, cs)
      end
  | (i, s :: ss) :: t =>
      match coins with
      | [] => None
      | true :: cs => match one_round t cs with
                      | None => None
                      | Some (b, rest, cs') => Some (s :: b, (i, ss) :: rest, cs')
                      end
      | false :: cs => match one_round t cs with
                       | None => None
                       | Some (b, rest, cs') => Some (b, (i, s :: ss) :: rest, cs')
                       end
      end
  end.

(** wav2letter.py 46-50. Every round uses at least one coin, so [fuel] is enough if there are as many rounds as coins. *)
Fixpoint rounds (fuel : nat) (data : list (string * list A)) (coins : list bool) : option (list (list A)) :=
  if 0 <? remaining_chunks data                                               (* 47 *)
  then match fuel with
       | O => None
       | S f => match one_round data coins with                               (* 48 *)
                | None => None
                | Some (b, rest, cs) =>
                    match rounds f rest cs with
                    | None => None
                    | Some bs => Some (match b with [] => bs | _ => b :: bs end)   (* 49-50 *)
                    end
                end
       end
  else Some [].

Definition batch_loop (data : list (string * list A)) (coins : list bool) : option (list (list A)) :=
  rounds (length coins) data coins.

End Program.

Section Run.
Context {V : Type}.

(** wav2letter.py 55-58. *)
Fixpoint stream_loop (Ls : list (layer V)) (sts : list (buffers V)) (c : collector V) (xs : list (batch V)) : res (collector V) :=
  match xs with
  | [] => Ok c
  | x :: t => do '(y, sts1) <- stack_call Ls sts x;                           (* 56 *)
              match update c [InBatch y] with                                 (* 58 *)
              | (c1, None) => stream_loop Ls sts1 c1 t
              | (_, Some e) => Err e
              end
  end.

(** wav2letter.py 60-61: the collected output of one id. *)
Definition collected (c : collector V) (i : string) : res (list V) :=
  match entries c i with Some x => Ok (sd x) | None => Err KeyError end.

(** wav2letter.py 37-61 for sequences with ids; [z] is the zero column. *)
Definition program (Ls : list (layer V)) (z : V) (items : list (string * list V)) (draws : list Z) (coins : list bool)
  : option (res (list (list V))) :=
  match (do x <- pad_full_sequence z (map snd items) ["F"; "L"]%string (map fst items); unpad_sequence x) with   (* 37-38 *)
  | Err e => Some (Err e)
  | Ok xs =>
      match all_chunks (map (fun s => zlen (sd s)) xs) draws with             (* 40 *)
      | None => None
      | Some sizes =>
          match mapM (fun p => split_single (fst p) (SList (snd p))) (zip xs sizes) with
          | Err e => Some (Err e)
          | Ok pieces =>
              match batch_loop (zip (map fst items) pieces) coins with        (* 46-49 *)
              | None => None
              | Some steps =>
                  Some (do bs <- mapM (pad_stream_tensor z) steps;            (* 50 *)
                        do c <- stream_loop Ls (fresh Ls) new_collector bs;   (* 52-58 *)
                        mapM (collected c) (map fst items))                   (* 60-61 *)
              end
          end
      end
  end.

(** wav2letter.py 35: the model in offline mode on one sequence (batch of one row). *)
Fixpoint plain_forward (Ls : list (layer V)) (w : nat) (rows : list (list V)) : res (nat * list (list V)) :=
  match Ls with
  | [] => Ok (w, rows)
  | LConv c :: t => do '(w1, rows1) <- torch_conv1d c (padn c) w rows; plain_forward t w1 rows1
  | LMap g :: t => plain_forward t w (map (map g) rows)
  end.
Definition target (Ls : list (layer V)) (d : list V) : res (list V) :=
  do '(_, rows) <- plain_forward Ls (length d) [d];
  match rows with [r] => Ok r | _ => Err RuntimeError end.

End Run.

(** Model of the example program examples/wav2letter.py 33-61 (and of tests/conftest.py 47-68, which cuts and batches in the same way) on
    tensors: padding and unpadding of Ragged.v, align_to of AlignTo.v, split and cat of Named.v, the network of ConvNet.v,
    and OutputCollector (dreamstream/data/data_objects.py 102-136) with tensors of any rank as entries.

    Program.v and Collector.v model the same code on lists of columns. The random numbers are inputs as there: None says
    that more of them are needed. Printing (63-69) is not modelled. *)

From Coq Require Import String List ZArith Bool Lia.
From Verif Require Import Py Meta Named Ragged AlignTo ConvTensor ConvNet.
From Verif Require Collector Program.
Import ListNotations.
Open Scope Z_scope.

Section ProgramTensor.
Context {V : Type}.
Notation tensor := (@tensor V).
Notation stensor := (@stensor V).

(** The dict (order of the keys not modelled) and the set of closed entries. *)
Record tcollector : Type := mkTColl { tentries : string -> option stensor; tclosed : string -> bool }.

(** data_objects.py 103-106. *)
Definition tnew_collector : tcollector := mkTColl (fun _ => None) (fun _ => false).

Definition tclose (st : tcollector) (i : string) : tcollector :=
  mkTColl (tentries st) (fun j => String.eqb j i || tclosed st j).
Definition tstore (st : tcollector) (i : string) (x : stensor) : tcollector :=
  mkTColl (fun j => if String.eqb j i then Some x else tentries st j) (tclosed st).

(** data_objects.py 130-131: concatenation along the length dimension of the new chunk. *)
Definition tcat_two (old x : stensor) : res stensor :=
  do d <- names_index (Some LENGTH) (names x);                                       (* 130 *)
  do o <- cat [OStream old; OStream x] (Z.of_nat d);                                 (* 131 *)
  match o with OStream y => Ok y | OPlain _ => Err TypeError end.

(** data_objects.py 118-136 (_update_unary): the new state and the exception raised, if any. *)
Definition tupdate_unary (st : tcollector) (x : stensor) : tcollector * option exn :=
  match ids (smeta x) with
  | [] => (st, Some IndexError)                                                      (* 119 *)
  | i :: _ =>
      if tclosed st i then (st, Some ValueError)                                     (* 121-122 *)
      else
        match Collector.item (eos (smeta x)) with
        | Err e => (st, Some e)
        | Ok e =>
            let st1 := if e then tclose st i else st in                              (* 123-124 *)
            match Collector.item (sos (smeta x)) with
            | Err e => (st1, Some e)
            | Ok s =>
                match tentries st1 i with
                | Some old =>
                    if s then (st1, Some ValueError)                                 (* 127-128 *)
                    else match tcat_two old x with
                         | Ok y => (tstore st1 i y, None)
                         | Err e => (st1, Some e)
                         end
                | None =>
                    if s then (tstore st1 i x, None)                                 (* 136 *)
                    else (st1, Some ValueError)                                      (* 133-134 *)
                end
            end
        end
  end.

Fixpoint tupdate_rows (st : tcollector) (xs : list stensor) : tcollector * option exn :=
  match xs with
  | [] => (st, None)
  | x :: t =>
      match max_length (smeta x) with
      | Err e => (st, Some e)
      | Ok n => if 0 <? n                                                            (* 112 *)
                then match tupdate_unary st x with
                     | (st1, None) => tupdate_rows st1 t
                     | r => r
                     end
                else tupdate_rows st t
      end
  end.

(** data_objects.py 108-116 (update) with one argument. *)
Definition tupdate (st : tcollector) (x : stensor) : tcollector * option exn :=
  if names_mem (Some BATCH) (names x) then                                           (* 110 *)
    match unpad_sequence_t x with
    | Err e => (st, Some e)
    | Ok xs => tupdate_rows st xs                                                    (* 111-113 *)
    end
  else if Nat.eqb (length (ids (smeta x))) 1 then tupdate_unary st x                 (* 115-116 *)
  else (st, Some AssertionError).

(** wav2letter.py 55-58. *)
Fixpoint tstream_loop (A : arith V) (Ls : list (net_layer V)) (sts : list (tbuffers V)) (c : tcollector) (xs : list stensor) : res tcollector :=
  match xs with
  | [] => Ok c
  | x :: t => do '(y, sts1) <- net_call A Ls sts x;                                  (* 56 *)
              match tupdate c y with                                                 (* 58 *)
              | (c1, None) => tstream_loop A Ls sts1 c1 t
              | (_, Some e) => Err e
              end
  end.

(** wav2letter.py 61: the collected output of one id. *)
Definition tcollected (c : tcollector) (i : string) : res tensor :=
  match tentries c i with Some x => Ok (tn x) | None => Err KeyError end.

(** s.size("L") (wav2letter.py 40). *)
Definition size_of_length (x : stensor) : res Z := do k <- names_index (Some LENGTH) (names x); Ok (size (tn x) k).

Definition bfl : list dname := [Some "B"; Some "F"; Some "L"]%string.

(** wav2letter.py 37, 50: padding, then align_to("B", "F", "L"). *)
Definition padded_items (A : arith V) (items : list (string * tensor)) : res stensor :=
  do x <- pad_full_sequence_t (zero A) (map snd items) [Some "F"; Some "L"]%string (map fst items) false;
  align_to x bfl.
Definition padded_chunks (A : arith V) (xs : list stensor) : res stensor :=
  do x <- pad_stream_tensor_t (zero A) xs false; align_to x bfl.

(** wav2letter.py 37-61 for tensors of sizes (features, length) with ids; split along dimension 1 (40). *)
Definition tprogram (A : arith V) (Ls : list (net_layer V)) (items : list (string * tensor)) (draws : list Z) (coins : list bool)
  : option (res (list tensor)) :=
  match (do x <- padded_items A items; do xs <- unpad_sequence_t x; do ns <- mapM size_of_length xs; Ok (xs, ns)) with   (* 37-40 *)
  | Err e => Some (Err e)
  | Ok (xs, ns) =>
      match Program.all_chunks ns draws with                                         (* 40 *)
      | None => None
      | Some sizes =>
          match mapM (fun p => split (fst p) (SList (snd p)) 1) (zip xs sizes) with
          | Err e => Some (Err e)
          | Ok pieces =>
              match Program.batch_loop (zip (map fst items) pieces) coins with       (* 46-49 *)
              | None => None
              | Some steps =>
                  Some (do bs <- mapM (padded_chunks A) steps;                       (* 50 *)
                        do c <- tstream_loop A Ls (net_fresh Ls) tnew_collector bs;  (* 52-58 *)
                        mapM (tcollected c) (map fst items))                         (* 60-61 *)
              end
          end
      end
  end.

(** wav2letter.py 35: the model in offline mode on one sequence, s.unsqueeze(0). *)
Definition ttarget (A : arith V) (Ls : list (net_layer V)) (s : tensor) : res tensor := net_plain A Ls (t_unsqueeze s 0).

End ProgramTensor.
Arguments tcollector V : clear implicits.

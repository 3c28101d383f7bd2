(** The cases of the repository's own tests of the dataset and the loader (tests/data/test_stream_dataset.py), run on
    the model.

    These are tests of the model and no proofs.  The 200 files of the tests have 20, 21, ..., 219 frames (line 45: hash(i) is i)
    at 40 frames per second. Shuffling is tried with the reversed order. *)

From Coq Require Import String Ascii List ZArith Bool.
From Verif Require Import Py Meta Pad Data.
Import ListNotations.
Open Scope string_scope.
Open Scope list_scope.
Open Scope Z_scope.

(** tests/data/test_stream_dataset.py 37-64. *)
Definition digit (n : nat) : string := String (ascii_of_nat (48 + n)) "".
Definition filename (i : nat) : string :=
  "file_" ++ digit (i / 100) ++ digit (i / 10 mod 10) ++ digit (i mod 10) ++ ".wav".
Definition filenames : list string := map filename (seq 0 200).
Definition lengths : list Z := map (fun i => Z.of_nat i + 20) (seq 0 200).
Definition sizes : list (string * Z) := Eval vm_compute in zip filenames lengths.
Definition frames (f : string) : res Z :=
  match lookup f sizes with Some n => Ok n | None => Err RuntimeError end.
Definition disk : world nat :=
  mkWorld (fun f => do n <- frames f; Ok (seq 0 (Z.to_nat n), 40)) (fun f => do n <- frames f; Ok (n, 40)) (fun x => x).

(** The items of a generator that ends without an exception. *)
Fixpoint items {A} (g : gen A) : option (list A) :=
  match g with
  | GStop => Some []
  | GRaise _ => None
  | GCons a t => match items t with Some l => Some (a :: l) | None => None end
  end.

(** tests/data/test_stream_dataset.py 67-69: sum of ceil(length / 40 / (cn / cd)). *)
Definition compute_num_samples (cn cd : Z) : nat :=
  Z.to_nat (zsum (map (fun n => (n * cd + 40 * cn - 1) / (40 * cn)) lengths)).

Definition the_dataset (cn cd : Z) : res dataset :=
  new_dataset disk filenames cn cd (Some (map (fun n => (n, 1)) lengths)) [] (Some 1) false false.

(** tests/data/test_stream_dataset.py 82-91 (test_iterate). *)
Definition iterate (cn cd : Z) : option bool :=
  match the_dataset cn cd with
  | Ok d => match items (get_streams disk d []) with
            | Some l => Some (Nat.eqb (length l) (compute_num_samples cn cd))
            | None => None
            end
  | Err _ => None
  end.
Example iterate_1 : map (fun p => iterate (fst p) (snd p)) [(1, 10); (1, 2); (1, 1); (2, 1)] = repeat (Some true) 4.
Proof. vm_compute. reflexivity. Qed.

(** tests/data/test_stream_dataset.py 93-101 (test_automatic_get_metadata). *)
Example automatic_metadata_1 :
  match new_dataset disk filenames 1 1 None [] (Some 1) false false with
  | Ok d => (length (dmeta d), length (dlens d)) = (200%nat, 200%nat)
  | Err _ => False
  end.
Proof. vm_compute. reflexivity. Qed.

(** tests/data/test_stream_dataset.py 103-134 (test_split): all combinations of the parameters. The order is that of argsort. *)
Definition both {A} (f : bool -> A) : list A := [f true; f false].
Definition is_value_error {A} (r : res A) : bool := match r with Err ValueError => true | _ => false end.
Definition split_case (given : bool) (nw bs : Z) (sh dr : bool) : bool :=
  match new_dataset disk filenames 1 1 (if given then Some (map (fun n => (n, 1)) lengths) else None) [] (Some 1) false false with
  | Err _ => false
  | Ok d =>
      let r := split disk d nw bs sh dr (seq 0 200) in
      if (nw <=? 0) || negb (bs mod nw =? 0) then is_value_error r
      else match r with
           | Ok ds => (zlen ds =? nw)
                      && forallb (fun x => match items (get_streams disk x (rev (dfiles x))) with Some _ => true | None => false end) ds
           | Err _ => false
           end
  end.
Example split_1 :
  forallb (fun nw => forallb (fun bs => forallb (fun b => b)
    (List.concat (List.concat (both (fun g => both (fun s => both (fun dr => split_case g nw bs s dr))))))) [1; 10; 100]) [-1; 0; 1; 4; 10] = true.
Proof. vm_compute. reflexivity. Qed.

(** tests/data/test_stream_dataset.py 137-172 (test_instantiate). *)
Example instantiate_loader_1 :
  match the_dataset 1 1 with
  | Ok d => List.concat (List.concat (both (fun sh => both (fun dr => both (fun ov =>
              Bool.eqb (dr && negb ov) (is_value_error (new_loader (inl d) 10 sh 5 ov dr)))))))
  | Err _ => []
  end = repeat true 8.
Proof. vm_compute. reflexivity. Qed.

(** The metadata of all batches of a loader; the workers shuffle by reversing. *)
Definition deliveries (nw : Z) (sh ov dr : bool) : option (list meta) :=
  match the_dataset 1 1 with
  | Err _ => None
  | Ok d =>
      match new_loader (inl d) 10 sh nw ov dr with
      | Err _ => None
      | Ok ld =>
          match loader_datasets disk ld (seq 0 200) with
          | Err _ => None
          | Ok ds =>
              match loader_iter 2000 disk ld (seq 0 200) (map (fun x => rev (dfiles x)) ds) (Some (custom_collate 0%nat)) with
              | Some g => match items g with Some l => Some (map (@bm nat) l) | None => None end
              | None => None
              end
          end
      end
  end.
Definition files_seen (l : list meta) : list string := flat_map ids l.
Definition files_where (f : meta -> list bool) (l : list meta) : list string :=
  flat_map (fun m => map fst (filter snd (zip (ids m) (f m)))) l.
Definition same_set (a b : list string) : bool := forallb (fun x => mem x b) a && forallb (fun x => mem x a) b.
Definition all_same (l : list bool) : bool := forallb (Bool.eqb (hd true l)) l.

(** tests/data/test_stream_dataset.py 174-235 (test_iterate_drop_last0): every combination. *)
Definition drop_last0 (nw : Z) (sh ov : bool) : option (bool * bool * bool * bool * bool) :=
  match deliveries nw sh ov false with
  | None => None
  | Some l =>
      Some (same_set (files_where sos l) (files_seen l), same_set (files_where eos l) (files_seen l),
            same_set filenames (files_seen l), Nat.eqb (length (files_seen l)) (compute_num_samples 1 1),
            ov || forallb (fun m => all_same (sos m)) l)
  end.
Example drop_last0_1 :
  flat_map (fun nw => List.concat (both (fun sh => both (fun ov => drop_last0 nw sh ov)))) [0; 1; 5]
  = repeat (Some (true, true, true, true, true)) 12.
Proof. vm_compute. reflexivity. Qed.

(** tests/data/test_stream_dataset.py 237-277 (test_iterate_drop_last1). *)
Definition drop_last1 (nw : Z) (sh : bool) : option (bool * bool * bool) :=
  match deliveries nw sh true true with
  | None => None
  | Some l => Some (same_set (files_where sos l) (files_seen l), same_set (files_where eos l) (files_seen l),
                    negb (is_nil (files_seen l)))
  end.
Example drop_last1_1 : both (drop_last1 0) = repeat (Some (true, true, true)) 2.
Proof. vm_compute. reflexivity. Qed.

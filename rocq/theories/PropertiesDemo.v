(** Properties of the demo dataset (C63, C64). *)

From Coq Require Import String List ZArith Bool Lia Permutation.
From Coq Require Import ZifyBool.
From Verif Require Import Py Meta Pad Data DataSpec Demo DemoSpec DemoProofs.
Import ListNotations.
Open Scope string_scope.
Open Scope list_scope.
Open Scope Z_scope.

(* ---------- C63 ---------- *)

(** C63: for positive batch size and number of workers, split_datasets makes as many datasets as the largest divisor of the batch size
    up to the number of workers, unless that is more than 52; the datasets together have the examples given, their batch sizes add up to
    the batch size and their numbers of chunks differ by at most the length of the longest example. *)
Theorem C63_split_datasets : forall (X : Type) (data : list (list X)) bs mw order M, 1 <= bs -> 1 <= mw ->
  Permutation order (seq 0 (length data)) ->
  exists n, largest_divisor n (Z.min mw bs) bs /\
    (52 < n -> split_datasets data bs mw order = Err IndexError) /\
    (n <= 52 -> exists ds, split_datasets data bs mw order = Ok ds /\ length ds = Z.to_nat n /\
       Permutation (List.concat (map d_list ds)) data /\ n * (bs / n) = bs /\
       (forall i d, nth_error ds i = Some d ->
          d_batch d = bs / n /\ d_shuffle d = false /\ d_drop d = false /\ d_name d = Some (letter i)) /\
       (0 <= M -> Forall (fun x => zlen x <= M) data -> balanced M (map (fun d => zlen (List.concat (d_list d))) ds))).
Proof. intros. now apply split_datasets_spec. Qed.

(** C63: there are 26 names; up to 26 workers have different ones. *)
Theorem C63_names_distinct : forall i j, (i < 26)%nat -> (j < 26)%nat -> letter i = letter j -> i = j.
Proof. exact letter_inj. Qed.

(** C63 refuted: from 27 workers on, two datasets have the same name, and examples cannot be told apart by it. *)
Theorem C63_names_refuted : forall (X : Type) (data : list (list X)) bs mw order n, 1 <= bs -> 1 <= mw ->
  Permutation order (seq 0 (length data)) -> largest_divisor n (Z.min mw bs) bs -> 27 <= n <= 52 ->
  exists ds d d', split_datasets data bs mw order = Ok ds /\ nth_error ds 0 = Some d /\ nth_error ds 26 = Some d' /\ d_name d = d_name d'.
Proof. exact @names_repeat. Qed.

(** C63 refuted: a batch size with a divisor over 52 and enough workers fails. *)
Theorem C63_many_workers_refuted : exists (data : list (list nat)) order, Permutation order (seq 0 (length data)) /\
  split_datasets data 53 53 order = Err IndexError.
Proof. exists [[1%nat]], [0%nat]. split; [reflexivity|]. vm_compute. reflexivity. Qed.

(** C63: without workers (or with batch size 0), any example at all makes the call fail. *)
Theorem C63_no_workers : forall (X : Type) (data : list (list X)) bs mw order, Z.min mw bs <= 0 -> order <> [] ->
  split_datasets data bs mw order = Err ValueError.
Proof. exact @split_no_workers. Qed.

(** The files a to j of the demo (lines 188-199), 7, 8, 4, 6, 5, 6, 8, 7, 3, 9 chunks, in three datasets of batch size 2. *)
Definition demo_data : list (list (nat * nat)) :=
  map (fun p => map (fun c => (fst p, c)) (seq 1 (snd p))) (List.combine (seq 0 10) [7; 8; 4; 6; 5; 6; 8; 7; 3; 9]%nat).
Definition demo_order : list nat := [8; 2; 4; 3; 5; 0; 7; 1; 6; 9]%nat.

Example C63_ex :
  (do ds <- split_datasets demo_data 6 3 demo_order;
   Ok (map (fun d => (map (fun x => length x) (d_list d), d_batch d, d_name d)) ds)) =
  Ok [([3; 6; 7; 9]%nat, 2, Some "A"); ([4; 6; 8]%nat, 2, Some "B"); ([5; 7; 8]%nat, 2, Some "C")].
Proof. vm_compute. reflexivity. Qed.
(** Four workers and batch size 6 give three datasets, five give three as well. *)
Example C63_divisor_ex : largest_divisor 3 (Z.min 5 6) 6.
Proof. split; [lia|]. split; [reflexivity|]. intros k Hk E. assert (k = 4 \/ k = 5) as [-> | ->] by lia; discriminate E. Qed.
Example C63_names_ex :
  (do ds <- split_datasets demo_data 27 27 demo_order; Ok (map d_name [nth 0 ds (mkDset [] 0 false false None); nth 26 ds (mkDset [] 0 false false None)]))
  = Ok [Some "A"; Some "A"].
Proof. vm_compute. reflexivity. Qed.
Example C63_none_ex : split_datasets demo_data 6 0 demo_order = Err ValueError /\ @split_datasets nat [] 6 0 [] = Err ZeroDivisionError /\
  @split_datasets nat [] 6 (-1) [] = Ok [].
Proof. split; [|split]; vm_compute; reflexivity. Qed.

(* ---------- C64 ---------- *)

(** C64: without drop_last the loader delivers every chunk of every dataset once, with the name of its dataset, in batches of at most the
    sum of the batch sizes; the chunks of one example come in order and no two of them in the same batch. *)
Theorem C64_delivers : forall (X : Type) (ds : list (dset X)) shuffles, Forall (fun d => 0 < d_batch d /\ d_drop d = false) ds ->
  Forall2 (@Permutation (list X)) shuffles (map d_list ds) ->
  exists out, demo_loader ds false demo_collate shuffles = gen_of (map (fun b => (map fst b, map snd b)) out) /\
    Forall (fun b => (1 <= length b <= list_sum (map (fun d => Z.to_nat (d_batch d)) ds))%nat) out /\
    Permutation (List.concat out) (List.concat (map (fun d => map (fun x => (x, d_name d)) (List.concat (d_list d))) ds)) /\
    forall owner ks, labelled owner ks (List.concat (map d_list ds)) ->
      (forall i k l, nth_error ks i = Some k -> nth_error (List.concat (map d_list ds)) i = Some l ->
                     chunks_of owner k (map fst (List.concat out)) = l) /\
      (forall k, Forall (fun b => (length (chunks_of owner k (map fst b)) <= 1)%nat) out).
Proof. exact @loader_delivers. Qed.

(** C64: with drop_last of the loader every example is delivered up to some point, and those of one of the datasets are complete. *)
Theorem C64_drop_last : forall (X : Type) (ds : list (dset X)) shuffles, ds <> [] -> Forall (fun d => 0 < d_batch d /\ d_drop d = false) ds ->
  Forall2 (@Permutation (list X)) shuffles (map d_list ds) ->
  exists out, demo_loader ds true demo_collate shuffles = gen_of (map (fun b => (map fst b, map snd b)) out) /\
    Forall (fun b => (length ds <= length b <= list_sum (map (fun d => Z.to_nat (d_batch d)) ds))%nat) out /\
    exists d0, In d0 ds /\
    forall owner ks, labelled owner ks (List.concat (map d_list ds)) ->
    forall i k l, nth_error ks i = Some k -> nth_error (List.concat (map d_list ds)) i = Some l ->
      (exists n, chunks_of owner k (map fst (List.concat out)) = firstn n l) /\
      (In l (d_list d0) -> chunks_of owner k (map fst (List.concat out)) = l).
Proof. exact @loader_drops. Qed.

(** C64: split_datasets and the loader together deliver the examples given, in batches of at most the batch size asked for. *)
Theorem C64_split_then_load : forall (X : Type) (data : list (list X)) bs mw order n, 1 <= bs -> 1 <= mw ->
  Permutation order (seq 0 (length data)) -> largest_divisor n (Z.min mw bs) bs -> n <= 52 ->
  exists ds, split_datasets data bs mw order = Ok ds /\
  forall shuffles drop, Forall2 (@Permutation (list X)) shuffles (map d_list ds) ->
  exists out, demo_loader ds drop demo_collate shuffles = gen_of (map (fun b => (map fst b, map snd b)) out) /\
    Forall (fun b => 1 <= zlen b <= bs) out /\
    (drop = false -> Permutation (map fst (List.concat out)) (List.concat data)) /\
    forall owner ks, labelled owner ks data -> forall i k l, nth_error ks i = Some k -> nth_error data i = Some l ->
      (exists m, chunks_of owner k (map fst (List.concat out)) = firstn m l) /\
      (drop = false -> chunks_of owner k (map fst (List.concat out)) = l /\
                       Forall (fun b => (length (chunks_of owner k (map fst b)) <= 1)%nat) out).
Proof. exact @split_then_load. Qed.

(** C64: a dataset with batch size 0 or less has no batches, whatever its examples. *)
Theorem C64_no_streams : forall (X : Type) (d : dset X) shuffled, d_batch d <= 0 -> demo_streams d shuffled = gen_of [].
Proof. exact @no_streams. Qed.

(** C64 refuted: drop_last of the loader over the datasets of split_datasets still leaves batches smaller than the batch size. *)
Theorem C64_full_batches_refuted : exists (data : list (list nat)) ds out, split_datasets data 2 1 [0; 1]%nat = Ok ds /\
  demo_loader ds true demo_collate (map d_list ds) = gen_of out /\ exists b, In b out /\ (length (fst b) < 2)%nat.
Proof.
  exists [[1]; [2; 3]]%nat. eexists. exists [([1; 2]%nat, [Some "A"; Some "A"]); ([3]%nat, [Some "A"])].
  split; [vm_compute; reflexivity|]. split; [vm_compute; reflexivity|]. eexists. split; [right; left; reflexivity|]. cbn. lia.
Qed.

(** Two datasets of batch sizes 2 and 1: files 1, 2, 3 in the first, 4 in the second; the third digit tells the chunk. *)
Definition demo_sets : list (dset nat) :=
  [mkDset [[10; 11]; [20; 21; 22]; [30]]%nat 2 false false (Some "A"); mkDset [[40; 41]]%nat 1 true false (Some "B")].
Example C64_ex : demo_loader demo_sets false demo_collate [[]; [[40; 41]]]%nat =
  gen_of [([10; 20; 40], [Some "A"; Some "A"; Some "B"]); ([11; 21; 41], [Some "A"; Some "A"; Some "B"]); ([30; 22], [Some "A"; Some "A"])]%nat.
Proof. vm_compute. reflexivity. Qed.
Example C64_drop_ex : demo_loader demo_sets true demo_collate [[]; [[40; 41]]]%nat =
  gen_of [([10; 20; 40], [Some "A"; Some "A"; Some "B"]); ([11; 21; 41], [Some "A"; Some "A"; Some "B"])]%nat.
Proof. vm_compute. reflexivity. Qed.
(** The labels: tens digits. *)
Example C64_labelled_ex : labelled (fun x => Nat.div x 10) [1; 2; 3; 4]%nat (List.concat (map d_list demo_sets)).
Proof.
  split; [|vm_compute; constructor; [|constructor; [|constructor; [|constructor; [|constructor]]]]; repeat (apply Forall_cons; [reflexivity|]); apply Forall_nil].
  apply NoDup_cons; [cbn; lia|]. apply NoDup_cons; [cbn; lia|]. apply NoDup_cons; [cbn; lia|]. apply NoDup_cons; [cbn; lia|]. apply NoDup_nil.
Qed.
Example C64_chunks_ex : chunks_of (fun x => Nat.div x 10) 2 [10; 20; 40; 11; 21; 41; 30; 22]%nat = [20; 21; 22]%nat.
Proof. vm_compute. reflexivity. Qed.
Example C64_none_ex : demo_streams (mkDset [[10; 11]]%nat 0 false false None) [] = gen_of [].
Proof. vm_compute. reflexivity. Qed.

(* ---- assumptions *)
Print Assumptions C63_split_datasets.
Print Assumptions C63_names_distinct.
Print Assumptions C63_names_refuted.
Print Assumptions C63_many_workers_refuted.
Print Assumptions C63_no_workers.
Print Assumptions C64_delivers.
Print Assumptions C64_drop_last.
Print Assumptions C64_split_then_load.
Print Assumptions C64_no_streams.
Print Assumptions C64_full_batches_refuted.

(** Theorems of record: the size of the groups of files that start together (C82). *)

From Coq Require Import String List ZArith Bool Lia Permutation.
From Verif Require Import Py Meta Pad Data DataSpec DataProofs PartitionProofs SyncProofs LoaderProofs PropertiesData.
Import ListNotations.
Open Scope string_scope.
Open Scope list_scope.
Open Scope nat_scope.

(** C82: make_streams_synchronous starts as many files at a time as the first batch of its stream has, except for a last group of files. *)
Theorem C82_full_groups : forall (V : Type) (bss : list (list (sample V))) l t, bss = l :: t -> well_formed bss ->
  exists n out, (forall fuel, n <= fuel -> make_streams_synchronous fuel (gen_of bss) = Some (gen_of out)) /\
    (forall f, of_file f (List.concat out) = of_file f (List.concat bss)) /\ in_groups out /\ full_groups (length l) out.
Proof.
  intros V bss l t H1 H2. destruct (sync_full bss l t H1 H2) as (n & out & O1 & O2 & _ & O4 & O5). exists n, out. auto.
Qed.

(** In the example of C46 the first batch has two files: groups {a, b} and {c, d}. *)
Example C82_example : well_formed overlapping /\ forall fuel, 7 <= fuel ->
  exists out, make_streams_synchronous fuel (gen_of overlapping) = Some (gen_of out) /\
    map (map (fun s => (sid s, ssos s))) out =
      [[("a", true); ("b", true)]; [("a", false)]; [("a", false)]; [("c", true); ("d", true)]; [("c", false)]] /\
    full_groups 2 out /\ ~ full_groups 1 out.
Proof.
  split; [exact C46_example_input|]. intros fuel H. do 7 (destruct fuel as [|fuel]; [lia|]).
  exists [[ev "a" true false 0; ev "b" true true 0]; [ev "a" false false 1]; [ev "a" false true 2]; [ev "c" true false 0; ev "d" true true 0]; [ev "c" false true 1]].
  split; [vm_compute; reflexivity|]. split; [reflexivity|]. split.
  - intros k b Hk Hb. destruct k as [|[|[|[|[|k]]]]]; cbn in Hk; inversion Hk; subst; try (left; reflexivity).
    all: try (apply Forall_inv in Hb; discriminate). destruct k; discriminate.
  - intros H0. destruct (H0 0 _ eq_refl) as [G|G].
    + apply Forall_forall. intros s [<-|[<-|[]]]; reflexivity.
    + discriminate.
    + specialize (G (ev "d" true true 0)). cbn in G. destruct G as [G|[G|[]]]; try discriminate. tauto.
Qed.

(** C82 for a loader over one dataset without overlapping batches: a group has one file for each of the batch_size / num_workers places of
    each worker that the worker can fill from its own files at the start. *)
Theorem C82_loader : forall (V : Type) (w : world V) d bs sh nw ld (S : string -> list (sample V)) order,
  new_loader (inl d) bs sh nw false false = Ok ld ->
  (0 < bs)%Z -> (bs mod (Z.max 1 nw) = 0)%Z -> splittable w d -> NoDup (dfiles d) -> dfiles d <> [] ->
  Permutation order (seq 0 (length (dfiles d))) ->
  (forall f, In f (dfiles d) -> yields (process_data w d f) (S f) /\ complete_file (S f)) ->
  exists ds, loader_datasets w ld order = Ok ds /\ length ds = Z.to_nat (Z.max 1 nw) /\ Permutation (List.concat (map dfiles ds)) (dfiles d) /\
  forall shuffles, Forall2 (@Permutation string) shuffles (map dfiles ds) ->
  exists n out, (forall fuel, n <= fuel -> loader_batches fuel w ld order shuffles = Some (gen_of out)) /\
    (forall f, In f (dfiles d) -> of_file f (List.concat out) = S f) /\ in_groups out /\
    full_groups (list_sum (map (fun e => Nat.min (Z.to_nat (bs / Z.max 1 nw)) (length (dfiles e))) ds)) out.
Proof.
  intros V w d bs sh nw ld S order H1 H2 H3 H4 H5 H6 H7 H8.
  destruct (loader_spec w d bs sh nw false ld S order H1 H2 H3 H4 H5 (fun _ => H6) H7 H8) as (ds & D1 & D2 & D3 & D4).
  exists ds. split; [exact D1|]. split; [exact D2|]. split; [exact D3|]. intros shuffles Hs.
  destruct (D4 shuffles Hs) as (n & out & O1 & _ & O3 & _ & O5). destruct (O5 eq_refl) as [G1 G2]. exists n, out. auto.
Qed.

(** With one worker, or when every worker has at least batch_size / num_workers files, groups have batch_size files
    (all files, if there are fewer). *)
Theorem C82_loader_full : forall (V : Type) (w : world V) d bs sh nw ld (S : string -> list (sample V)) order,
  new_loader (inl d) bs sh nw false false = Ok ld ->
  (0 < bs)%Z -> (bs mod (Z.max 1 nw) = 0)%Z -> splittable w d -> NoDup (dfiles d) -> dfiles d <> [] ->
  Permutation order (seq 0 (length (dfiles d))) ->
  (forall f, In f (dfiles d) -> yields (process_data w d f) (S f) /\ complete_file (S f)) ->
  exists ds, loader_datasets w ld order = Ok ds /\
  forall shuffles, Forall2 (@Permutation string) shuffles (map dfiles ds) ->
  exists n out, (forall fuel, n <= fuel -> loader_batches fuel w ld order shuffles = Some (gen_of out)) /\
    ((nw <= 1)%Z -> full_groups (Nat.min (Z.to_nat bs) (length (dfiles d))) out) /\
    (Forall (fun e => (bs / Z.max 1 nw <= zlen (dfiles e))%Z) ds -> full_groups (Z.to_nat bs) out).
Proof.
  intros V w d bs sh nw ld S order H1 H2 H3 H4 H5 H6 H7 H8.
  destruct (C82_loader V w d bs sh nw ld S order H1 H2 H3 H4 H5 H6 H7 H8) as (ds & D1 & D2 & D3 & D4).
  exists ds. split; [exact D1|]. intros shuffles Hs. destruct (D4 shuffles Hs) as (n & out & O1 & _ & _ & G). exists n, out.
  split; [exact O1|]. split.
  - intros Hw. replace (Z.max 1 nw) with 1%Z in * by lia. destruct ds as [|e [|e2 ds]]; try discriminate. cbn [map List.concat] in *.
    rewrite app_nil_r in D3. rewrite (Permutation_length D3), Z.div_1_r in G. unfold list_sum in G. cbn [fold_right] in G.
    rewrite Nat.add_0_r in G. exact G.
  - intros Hf. replace (Z.to_nat bs) with (list_sum (map (fun e => Nat.min (Z.to_nat (bs / Z.max 1 nw)) (length (dfiles e))) ds)); [exact G|].
    pose proof (Z.div_mod bs (Z.max 1 nw) ltac:(lia)) as Q. rewrite H3 in Q.
    set (per := (bs / Z.max 1 nw)%Z) in *. assert (Hp : (0 < per)%Z) by nia.
    transitivity (length ds * Z.to_nat per); [|rewrite D2; nia]. clear - Hf Hp.
    induction Hf as [|e ds He Hf IH]; [reflexivity|]. cbn [map length]. change (list_sum (?a :: ?l)) with (a + list_sum l).
    unfold zlen in He. rewrite IH. lia.
Qed.

(** With several workers groups of batch_size files are not guaranteed: the code takes the size of the first batch for the batch size. Here a
    worker with one long file can fill one of its two places only; all groups have three files instead of four. *)
Definition long_frames (f : string) : list Z := (if String.eqb f "a" then [1;2;3;4;5;6;7;8;9;10;11;12;13;14] else [1;2])%Z.
Definition long_world : world Z :=
  mkWorld (fun f => Ok (long_frames f, 2%Z)) (fun f => Ok (zlen (long_frames f), 2%Z)) (fun l => l).
Definition long_set : dataset :=
  match new_dataset long_world ["a"; "b"; "c"; "d"; "e"; "f"; "g"] 1 1 None [] (Some 1%Z) false false with
  | Ok d => d | Err _ => mkDataset [] 0 0 [] [] None false false end.
Definition long_loader : loader := mkLoader (inl long_set) 4 false 2 false false.
Definition long_chunks (f : string) : list (sample Z) :=
  if String.eqb f "a" then
    map (fun k => mkSample (long_frames f) (k =? 0)%Z (k =? 6)%Z 2 k 7 f) [0; 1; 2; 3; 4; 5; 6]%Z
  else [mkSample (long_frames f) true true 2 0 1 f].

Definition chunk (f : string) (k : nat) : sample Z := nth k (long_chunks f) (mkSample [] false false 0 0 0 f).

Example C82_example_files : forall f, In f (dfiles long_set) ->
  yields (process_data long_world long_set f) (long_chunks f) /\ complete_file (long_chunks f).
Proof.
  intros f Hf. cbn in Hf. decompose [or] Hf; try contradiction; subst f; (split; [vm_compute; reflexivity|]); (split; [discriminate|]); intros k s Hk;
    do 7 (destruct k as [|k]; [cbn in Hk; try discriminate; inversion Hk; subst; split; reflexivity|]); destruct k; discriminate.
Qed.

Theorem C82_batch_size_refuted :
  exists (w : world Z) d bs sh nw ld (S : string -> list (sample Z)) order shuffles ds n out,
    new_loader (inl d) bs sh nw false false = Ok ld /\
    (0 < bs)%Z /\ (bs mod (Z.max 1 nw) = 0)%Z /\ splittable w d /\ NoDup (dfiles d) /\
    Permutation order (seq 0 (length (dfiles d))) /\
    (forall f, In f (dfiles d) -> yields (process_data w d f) (S f) /\ complete_file (S f)) /\
    loader_datasets w ld order = Ok ds /\ Forall2 (@Permutation string) shuffles (map dfiles ds) /\
    (forall fuel, n <= fuel -> loader_batches fuel w ld order shuffles = Some (gen_of out)) /\
    ~ full_groups (Z.to_nat bs) out.
Proof.
  exists long_world, long_set, 4%Z, false, 2%Z, long_loader, long_chunks, [0; 1; 2; 3; 4; 5; 6], [["a"]; ["b"; "c"; "d"; "e"; "f"; "g"]].
  eexists _. exists 20, [[chunk "a" 0; chunk "b" 0; chunk "c" 0]; [chunk "a" 1]; [chunk "a" 2]; [chunk "a" 3]; [chunk "a" 4]; [chunk "a" 5];
                    [chunk "a" 6]; [chunk "d" 0; chunk "e" 0; chunk "f" 0]; [chunk "g" 0]].
  split; [reflexivity|]. split; [lia|]. split; [reflexivity|].
  split; [apply (new_splittable long_world ["a"; "b"; "c"; "d"; "e"; "f"; "g"] 1 1 (Some 1%Z) false false); [reflexivity|discriminate]|].
  split. { cbn. repeat (apply NoDup_cons; [cbn; intuition discriminate|]). apply NoDup_nil. }
  split; [apply Permutation_refl|]. split; [exact C82_example_files|].
  split; [vm_compute; reflexivity|]. split; [apply Forall2_cons; [apply Permutation_refl|]; apply Forall2_cons; [apply Permutation_refl|apply Forall2_nil]|].
  split.
  - intros fuel H. do 20 (destruct fuel as [|fuel]; [lia|]). vm_compute. reflexivity.
  - intros H. destruct (H 7 _ eq_refl) as [G|G].
    + apply Forall_forall. intros s [<-|[<-|[<-|[]]]]; reflexivity.
    + discriminate.
    + specialize (G (chunk "g" 0)). vm_compute in G. intuition discriminate.
Qed.

(* ---- assumptions *)
Print Assumptions C82_full_groups.
Print Assumptions C82_loader.
Print Assumptions C82_loader_full.
Print Assumptions C82_batch_size_refuted.

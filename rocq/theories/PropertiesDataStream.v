(** Properties of a data loader in front of a network (C90).

    [stream_loader] runs the loop of examples/wav2letter.py over the collated batches of a loader; [stream_gen] runs it over
    any generator of batches; see DataStream.v. [file_output Ls f d k] is what a collector should have for the file: the
    offline output of the data, started, ended, with its length and the index of the last chunk (DataStreamSpec.v). *)

From Coq Require Import String List ZArith Bool Lia Permutation.
From Coq Require Import ZifyBool.
From Verif Require Import Py Meta MetaSpec Pad Conv ConvSpec Stack StackSpec Collector CollectorSpec Program KeepSpec
  Data DataSpec DataProofs PartitionProofs DataStream DataStreamSpec DataStreamProofs DataStreamEndProofs.
Import ListNotations.
Open Scope string_scope.
Open Scope list_scope.
Open Scope nat_scope.

(** The program ends with a collector exactly if the loader raises nothing and the loop of the example program over its
    batches ends with that collector. *)
Theorem C90_loop : forall (V : Type) fuel (w : world V) ld order shuffles Ls (z : V) c,
  stream_loader fuel w ld order shuffles Ls z = Some (Ok c) <->
  exists xs, loader_iter fuel w ld order shuffles (Some (custom_collate z)) = Some (gen_of xs) /\ stream_loop Ls (fresh Ls) new_collector xs = Ok c.
Proof. intros V. exact stream_loader_ok. Qed.

(** Samples that carry their own chunk of at least [n] columns, enough to give output without padding; every file delivered
    completely; in every batch all files start or none does; all strides 1: nothing raises and the collector has for each
    file the offline output of its audio. *)
Theorem C90_groups : forall (V : Type) Ls (z z' : V) (bss : list (list (sample V))) n w,
  Forall overlapping Ls -> Forall unit_stride Ls -> zero_preserving z Ls z' -> 1 <= n -> unpadded_width Ls n = Some w ->
  Forall (fun b => b <> [] /\ NoDup (map sid b)) bss ->
  (forall f, of_file f (List.concat bss) = [] \/ complete_file (of_file f (List.concat bss))) ->
  Forall (own_chunk n) (List.concat bss) ->
  Forall (fun b => Forall (fun s => ssos s = true) b \/ Forall (fun s => ssos s = false) b) bss ->
  exists c, stream_gen Ls (fresh Ls) new_collector (gmapM (custom_collate z) (gen_of bss)) = Ok c /\
    forall f, (of_file f (List.concat bss) = [] -> entries c f = None) /\
      forall e, nth_error (of_file f (List.concat bss)) (length (of_file f (List.concat bss)) - 1) = Some e ->
        entries c f = Some (file_output Ls f (List.concat (map sdata (of_file f (List.concat bss)))) (sidx e)).
Proof. intros V. exact groups_collected. Qed.

(** The loader as it is, with any number of workers, any shuffles, overlapping batches or not: if every file is a single
    chunk, nothing raises and the collector has for each file, and for nothing else, the offline output of its audio. *)
Theorem C90_short_files : forall (V : Type) Ls (z z' : V) (w : world V) d bs sh nw ov ld order, Forall overlapping Ls -> zero_preserving z Ls z' ->
  new_loader (inl d) bs sh nw ov false = Ok ld ->
  (0 < bs)%Z -> (bs mod (Z.max 1 nw) = 0)%Z -> splittable w d -> NoDup (dfiles d) -> (ov = false -> dfiles d <> []) ->
  Permutation order (seq 0 (length (dfiles d))) ->
  (forall f, In f (dfiles d) -> exists raw rate c, load w f = Ok (raw, rate) /\
     chunk_size (dcn d) (dcd d) rate (zlen raw) (zlen (transform w raw)) = Ok c /\ (zlen (transform w raw) <= c)%Z /\ fruitful Ls (transform w raw)) ->
  exists ds, loader_datasets w ld order = Ok ds /\
  forall shuffles, Forall2 (@Permutation string) shuffles (map dfiles ds) ->
  exists n c, (forall fuel, n <= fuel -> stream_loader fuel w ld order shuffles Ls z = Some (Ok c)) /\
    (forall f raw rate, In f (dfiles d) -> load w f = Ok (raw, rate) -> entries c f = Some (file_output Ls f (transform w raw) 0)) /\
    (forall f, ~ In f (dfiles d) -> entries c f = None).
Proof. intros V. exact short_files. Qed.

(** Files "a" of 5 and "b" of 4 frames at rate 2. *)
Definition two_files : world Z :=
  mkWorld (fun f => if String.eqb f "a" then Ok ([1; 2; 3; 4; 5], 2) else if String.eqb f "b" then Ok ([6; 7; 8; 9], 2) else Err RuntimeError)%Z
          (fun f => if String.eqb f "a" then Ok (5, 2) else if String.eqb f "b" then Ok (4, 2) else Err RuntimeError)%Z
          (map (Z.mul 1)).
Definition sized_set (seconds : Z) : dataset :=
  match new_dataset two_files ["a"; "b"] seconds 1 None [] (Some 1%Z) false false with Ok d => d | Err _ => mkDataset [] 0 0 [] [] None false false end.
Definition sized_loader (seconds : Z) (ov : bool) : loader := mkLoader (inl (sized_set seconds)) 2 false 2 ov false.
Definition tens_digits (l : list Z) : Z := fold_right (fun a s => (a + 10 * s)%Z) 0%Z l.
Definition two_layers : list (layer Z) := [LConv (mkCfg 2 1 1 1 tens_digits 0%Z 0%Z); LMap (Z.max 0)].

(** Chunks of three seconds: every file is one chunk. *)
Example C90_example_short :
  new_loader (inl (sized_set 3)) 2 false 2 true false = Ok (sized_loader 3 true) /\ splittable two_files (sized_set 3) /\
  Forall overlapping two_layers /\ zero_preserving 0%Z two_layers 0%Z /\
  (forall f, In f (dfiles (sized_set 3)) -> exists raw rate c, load two_files f = Ok (raw, rate) /\
     chunk_size (dcn (sized_set 3)) (dcd (sized_set 3)) rate (zlen raw) (zlen (transform two_files raw)) = Ok c /\
     (zlen (transform two_files raw) <= c)%Z /\ fruitful two_layers (transform two_files raw)) /\
  match stream_loader 10 two_files (sized_loader 3 true) [0; 1] [["a"]; ["b"]] two_layers 0%Z with
  | Some (Ok c) => entries c "a" = Some (file_output two_layers "a" [1; 2; 3; 4; 5] 0)%Z /\
                   entries c "b" = Some (mkSingle [60; 76; 87; 98; 9] (mkMeta ["b"] [true] [true] [5] (Some [0])))%Z
  | _ => False
  end.
Proof.
  split; [reflexivity|]. split; [apply (new_splittable two_files ["a"; "b"] 3 1 (Some 1%Z) false false); [reflexivity|discriminate]|].
  split; [constructor; [vm_compute; lia|constructor; [exact I|constructor]]|]. split; [vm_compute; auto|]. split.
  - intros f H. assert (E : dfiles (sized_set 3) = ["a"; "b"]) by (vm_compute; reflexivity). rewrite E in H.
    destruct H as [<-|[<-|[]]].
    + exists [1; 2; 3; 4; 5]%Z, 2%Z, 6%Z. split; [reflexivity|]. split; [vm_compute; reflexivity|]. split; [vm_compute; discriminate|].
      vm_compute. split; [discriminate|split; [discriminate|split; [discriminate|exact I]]].
    + exists [6; 7; 8; 9]%Z, 2%Z, 6%Z. split; [reflexivity|]. split; [vm_compute; reflexivity|]. split; [vm_compute; discriminate|].
      vm_compute. split; [discriminate|split; [discriminate|split; [discriminate|exact I]]].
  - vm_compute. split; reflexivity.
Qed.

(** A file that cannot be read: the exception of torchaudio reaches the program. *)
Example C90_example_unreadable :
  match new_dataset two_files ["a"] 1 1 None [] (Some 1%Z) false false with
  | Ok d => match stream_loader 10 (mkWorld (fun _ => Err RuntimeError) (info two_files) (transform two_files)) (mkLoader (inl d) 1 false 1 false false)
                    [0] [["a"]] two_layers 0%Z with Some (Err RuntimeError) => True | _ => False end
  | Err _ => False
  end.
Proof. vm_compute. exact I. Qed.

(** For longer files it is false: every sample carries the whole audio (C41), so the network gets the first columns again
    and again. With one file, one worker, chunks of one second and a layer that doubles its input the collected output of
    [1; 2; 3; 4; 5] is [2; 4; 2; 4; 2], of the right length and marked as started and ended. *)
Theorem C90_long_file_refuted :
  exists (w : world Z) d ld Ls f raw rate c, new_loader (inl d) 1 false 1 false false = Ok ld /\ splittable w d /\ dfiles d = [f] /\
    Forall overlapping Ls /\ Forall unit_stride Ls /\ zero_preserving 0%Z Ls 0%Z /\ load w f = Ok (raw, rate) /\
    stream_loader 10 w ld [0] [[f]] Ls 0%Z = Some (Ok c) /\
    stack_offline Ls (transform w raw) = [2; 4; 6; 8; 10]%Z /\
    entries c f = Some (mkSingle [2; 4; 2; 4; 2] (mkMeta [f] [true] [true] [5] (Some [2])))%Z.
Proof.
  set (d := match new_dataset two_files ["a"] 1 1 None [] (Some 1%Z) false false with Ok d => d | Err _ => mkDataset [] 0 0 [] [] None false false end).
  set (ld := mkLoader (inl d) 1 false 1 false false).
  destruct (stream_loader 10 two_files ld [0] [["a"]] [LMap (Z.mul 2)] 0%Z) as [[c|e]|] eqn:E; try (exfalso; vm_compute in E; discriminate).
  exists two_files, d, ld, [LMap (Z.mul 2)], "a", [1; 2; 3; 4; 5]%Z, 2%Z, c.
  split; [reflexivity|]. split; [apply (new_splittable two_files ["a"] 1 1 (Some 1%Z) false false); [reflexivity|discriminate]|].
  split; [vm_compute; reflexivity|]. split; [repeat constructor|]. split; [repeat constructor|]. split; [vm_compute; auto|].
  split; [reflexivity|]. split; [exact E|]. split; [vm_compute; reflexivity|].
  assert (G : match stream_loader 10 two_files ld [0] [["a"]] [LMap (Z.mul 2)] 0%Z with Some (Ok c) => entries c "a" | _ => None end
    = Some (mkSingle [2; 4; 2; 4; 2] (mkMeta ["a"] [true] [true] [5] (Some [2])))%Z) by (vm_compute; reflexivity).
  rewrite E in G. exact G.
Qed.

(** Samples with their own chunks, in batches where files start while others go on, as the default loader makes them
    (C47): the convolution drops the chunk indices and the collector raises ValueError (C89). *)
Definition own_chunks : list (list (sample Z)) :=
  [ [mkSample [1; 2; 3] true false 3 0 2 "a"]; [mkSample [4; 5] false true 2 1 2 "a"; mkSample [6; 7; 8; 9] true true 4 0 1 "b"] ]%Z.
Theorem C90_overlapping_batches_refuted :
  exists (bss : list (list (sample Z))) Ls n w, Forall overlapping Ls /\ Forall unit_stride Ls /\ zero_preserving 0%Z Ls 0%Z /\
    1 <= n /\ unpadded_width Ls n = Some w /\ Forall (fun b => b <> [] /\ NoDup (map sid b)) bss /\
    (forall f, of_file f (List.concat bss) = [] \/ complete_file (of_file f (List.concat bss))) /\
    Forall (own_chunk n) (List.concat bss) /\
    stream_gen Ls (fresh Ls) new_collector (gmapM (custom_collate 0%Z) (gen_of bss)) = Err ValueError.
Proof.
  exists own_chunks, two_layers, 2, 1.
  split; [constructor; [vm_compute; lia|constructor; [exact I|constructor]]|].
  split; [constructor; [reflexivity|constructor; [exact I|constructor]]|]. split; [vm_compute; auto|]. split; [lia|]. split; [reflexivity|].
  split; [repeat constructor; try discriminate; simpl; intuition discriminate|].
  split.
  { intros f. unfold of_file. cbn [own_chunks List.concat app filter sid].
    destruct (String.eqb "a" f) eqn:Ea; destruct (String.eqb "b" f) eqn:Eb.
    - apply String.eqb_eq in Ea, Eb. congruence.
    - right. split; [discriminate|]. intros [|[|[|k]]] s H; cbn in H; try discriminate; inversion H; subst; split; reflexivity.
    - right. split; [discriminate|]. intros [|[|k]] s H; cbn in H; try discriminate; inversion H; subst; split; reflexivity.
    - left. reflexivity. }
  split; [repeat constructor|]. vm_compute. reflexivity.
Qed.

(** In groups: "a" and "b" start together. *)
Definition grouped : list (list (sample Z)) :=
  [ [mkSample [1; 2; 3] true false 3 0 2 "a"; mkSample [6; 7] true false 2 0 2 "b"];
    [mkSample [8; 9] false true 2 1 2 "b"; mkSample [4; 5] false true 2 1 2 "a"] ]%Z.
Example C90_example_groups :
  unpadded_width two_layers 2 = Some 1 /\ Forall (own_chunk 2) (List.concat grouped) /\
  Forall (fun b => Forall (fun s => ssos s = true) b \/ Forall (fun s => ssos s = false) b) grouped /\
  match stream_gen two_layers (fresh two_layers) new_collector (gmapM (custom_collate 0%Z) (gen_of grouped)) with
  | Ok c => entries c "a" = Some (file_output two_layers "a" [1; 2; 3; 4; 5] 1)%Z /\
            entries c "b" = Some (mkSingle [60; 76; 87; 98; 9] (mkMeta ["b"] [true] [true] [5] (Some [1])))%Z
  | Err _ => False
  end.
Proof.
  split; [reflexivity|]. split; [repeat constructor|]. split; [constructor; [left|constructor; [right|constructor]]; repeat constructor|].
  vm_compute. split; reflexivity.
Qed.

(* ---- assumptions *)
Print Assumptions C90_loop.
Print Assumptions C90_groups.
Print Assumptions C90_short_files.
Print Assumptions C90_long_file_refuted.
Print Assumptions C90_overlapping_batches_refuted.

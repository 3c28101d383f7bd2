(** Properties of datasets, loaders and collation (C40-C48). *)

From Coq Require Import String List ZArith Bool Lia Permutation Sorted.
From Verif Require Import Py Meta Pad Data DataSpec DataProofs DataDropProofs PartitionProofs SyncProofs LoaderProofs LoaderDropProofs.
Import ListNotations.
Open Scope string_scope.
Open Scope list_scope.
Open Scope nat_scope.

(** A small world for the examples: three files of 5, 3 and 1 frames at rate 2 and a transform that negates the values. *)
Definition ex_world : world Z :=
  mkWorld (fun f => if String.eqb f "a" then Ok ([1; 2; 3; 4; 5], 2) else if String.eqb f "b" then Ok ([7; 8; 9], 2)
                    else if String.eqb f "c" then Ok ([6], 2) else Err RuntimeError)%Z
          (fun f => if String.eqb f "a" then Ok (5, 2) else if String.eqb f "b" then Ok (3, 2)
                    else if String.eqb f "c" then Ok (1, 2) else Err RuntimeError)%Z
          (map Z.opp).
(** One second per chunk, so chunks of two frames. *)
Definition ex_set (files : list string) (bs : Z) (drop : bool) : dataset :=
  match new_dataset ex_world files 1 1 None [] (Some bs) false drop with Ok d => d | Err _ => mkDataset [] 0 0 [] [] None false false end.
Definition ex_chunks (f : string) : list (sample Z) :=
  (if String.eqb f "a" then [mkSample [-1; -2; -3; -4; -5] true false 2 0 3 "a"; mkSample [-1; -2; -3; -4; -5] false false 2 1 3 "a";
                            mkSample [-1; -2; -3; -4; -5] false true 1 2 3 "a"]
  else if String.eqb f "b" then [mkSample [-7; -8; -9] true false 2 0 2 "b"; mkSample [-7; -8; -9] false true 1 1 2 "b"]
  else if String.eqb f "c" then [mkSample [-6] true true 1 0 1 "c"] else [])%Z.

(* ---------- C40 ---------- *)

(** C40: a readable, non-empty file with a positive chunk size [c] gives ceil(L / c) samples: complete_file says that exactly the
    first has sos and exactly the last eos; indices count from 0, lengths are positive, at most [c] and add up to L. *)
Theorem C40_file_chunks : forall (V : Type) (w : world V) d f raw rate c, load w f = Ok (raw, rate) ->
  chunk_size (dcn d) (dcd d) rate (zlen raw) (zlen (transform w raw)) = Ok c -> (0 < c)%Z ->
  exists l, yields (process_data w d f) l /\ complete_file l /\
    (c * (Z.of_nat (length l) - 1) < zlen (transform w raw) <= c * Z.of_nat (length l))%Z /\
    zsum (map slen l) = zlen (transform w raw) /\
    forall k s, nth_error l k = Some s -> sid s = f /\ sidx s = Z.of_nat k /\ snum s = Z.of_nat (length l) /\
      (0 < slen s <= c)%Z /\ (S k < length l -> slen s = c).
Proof. intros V. exact process_spec. Qed.

(** C40: the chunk size is chunk_seconds * rate / stride, rounded to a nearest integer, where stride = frames / transformed frames. *)
Theorem C40_chunk_size : forall cn cd rate frames L c, (0 < cd)%Z -> (0 < frames)%Z -> chunk_size cn cd rate frames L = Ok c ->
  (2 * Z.abs (c * (cd * frames) - cn * rate * L) <= cd * frames)%Z.
Proof. exact chunk_size_nearest. Qed.

(** C40: audio without frames and a chunk size that rounds to zero are refused. *)
Theorem C40_rejects : forall (V : Type) (w : world V) d f raw rate, load w f = Ok (raw, rate) ->
  (transform w raw = [] -> process_data w d f = GRaise ZeroDivisionError) /\
  (chunk_size (dcn d) (dcd d) rate (zlen raw) (zlen (transform w raw)) = Ok 0%Z -> process_data w d f = GRaise ValueError).
Proof. intros V. exact process_rejects. Qed.

Example C40_example :
  load ex_world "a" = Ok ([1; 2; 3; 4; 5], 2)%Z /\ chunk_size 1 1 2 5 5 = Ok 2%Z /\
  yields (process_data ex_world (ex_set ["a"; "b"; "c"] 2 false) "a") (ex_chunks "a").
Proof. split; [reflexivity|]. split; [reflexivity|]. vm_compute. reflexivity. Qed.
(** A transform that halves the number of frames halves the chunk size; a very short chunk duration rounds to zero. *)
Example C40_example_stride : chunk_size 3 1 8 20 10 = Ok 12%Z /\ chunk_size 1 100 2 5 5 = Ok 0%Z.
Proof. split; reflexivity. Qed.

(* ---------- C41 ---------- *)

(** C41 is false: every sample carries the whole audio. *)
Theorem C41_sample_data_refuted :
  exists (w : world Z) d f raw rate l, load w f = Ok (raw, rate) /\ yields (process_data w d f) l /\ length l = 3 /\
    Forall (fun s => zlen (sdata s) <> slen s) l /\ List.concat (map sdata l) <> transform w raw.
Proof.
  exists ex_world, (ex_set ["a"] 1 false), "a", [1; 2; 3; 4; 5]%Z, 2%Z, (ex_chunks "a").
  split; [reflexivity|]. split; [vm_compute; reflexivity|]. split; [reflexivity|]. split.
  - repeat (apply Forall_cons; [vm_compute; discriminate|]). apply Forall_nil.
  - vm_compute. discriminate.
Qed.

(** C41, what remains true: the data of each sample is the transformed audio, and cutting from it what index and length say gives
    pieces that concatenate to the audio. Missing: that the sample's data is that piece. *)
Theorem C41_pieces_partial : forall (V : Type) (w : world V) d f raw rate c, load w f = Ok (raw, rate) ->
  chunk_size (dcn d) (dcd d) rate (zlen raw) (zlen (transform w raw)) = Ok c -> (0 < c)%Z ->
  exists l, yields (process_data w d f) l /\
    Forall (fun s => sdata s = transform w raw) l /\
    List.concat (map (fun s => firstn (Z.to_nat (slen s)) (skipn (Z.to_nat (sidx s * c)) (sdata s))) l) = transform w raw.
Proof. intros V. exact process_pieces. Qed.

Example C41_example : map (fun s => firstn (Z.to_nat (slen s)) (skipn (Z.to_nat (sidx s * 2)) (sdata s))) (ex_chunks "a")
  = [[-1; -2]; [-3; -4]; [-5]]%Z.
Proof. reflexivity. Qed.

(* ---------- C42 ---------- *)

(** C42: iterating a dataset without drop_last; [S f] are the samples of file [f] (described by C40). *)
Theorem C42_every_chunk_once : forall (V : Type) (w : world V) d shuffled (S : string -> list (sample V)) bs,
  dbatch d = Some bs -> (0 < bs)%Z -> ddrop d = false ->
  NoDup (dfiles d) -> Permutation shuffled (dfiles d) -> (forall f, In f (dfiles d) -> yields (process_data w d f) (S f)) ->
  exists bss, yields (get_streams w d shuffled) bss /\
    Forall (fun b => 1 <= length b <= Z.to_nat bs /\ NoDup (map sid b)) bss /\
    (forall f, In f (dfiles d) -> of_file f (List.concat bss) = S f) /\
    (forall s, In s (List.concat bss) -> In (sid s) (dfiles d)).
Proof.
  intros V w d sh S bs H1 H2 H3 H4 H5 H6. destruct (dataset_iter w d sh S bs H1 H2 H3 H4 H5 H6) as (bss & B1 & B2 & B3 & B4 & _). eauto.
Qed.

Example C42_example :
  (forall f, In f (dfiles (ex_set ["a"; "b"; "c"] 2 false)) ->
     yields (process_data ex_world (ex_set ["a"; "b"; "c"] 2 false) f) (ex_chunks f)) /\
  gmap (map (fun s => (sid s, sidx s))) (get_streams ex_world (ex_set ["a"; "b"; "c"] 2 false) [])
  = gen_of [[("a", 0); ("b", 0)]; [("a", 1); ("b", 1)]; [("a", 2)]; [("c", 0)]]%Z.
Proof.
  split.
  - intros f [<-|[<-|[<-|[]]]]; vm_compute; reflexivity.
  - vm_compute. reflexivity.
Qed.

(* ---------- C43 ---------- *)

(** C43 for one dataset with at least as many files as streams: full batches of different files, and every file that appears is delivered
    from its start up to some chunk which carries the end flag. The iteration goes on until one of the streams is used up. *)
Theorem C43_drop_last : forall (V : Type) (w : world V) d shuffled (S : string -> list (sample V)) bs,
  dbatch d = Some bs -> (0 < bs)%Z -> ddrop d = true ->
  NoDup (dfiles d) -> Permutation shuffled (dfiles d) ->
  (forall f, In f (dfiles d) -> yields (process_data w d f) (S f) /\ complete_file (S f)) -> (bs <= zlen (dfiles d))%Z ->
  exists bss, yields (get_streams w d shuffled) bss /\ bss <> [] /\
    Forall (fun b => length b = Z.to_nat bs /\ NoDup (map sid b)) bss /\
    (forall f, of_file f (List.concat bss) = [] \/
       In f (dfiles d) /\ ended_prefix (of_file f (List.concat bss)) (S f) /\ started_ended (of_file f (List.concat bss))) /\
    (exists j, (0 <= j < bs)%Z /\
       forall p f, nth_error (if dshuffle d then shuffled else dfiles d) p = Some f -> (Z.of_nat p mod bs = j)%Z ->
         of_file f (List.concat bss) = S f).
Proof.
  intros V w d sh S bs H1 H2 H3 H4 H5 H6 H7.
  destruct (dataset_drop w d sh S bs H1 H2 H3 H4 H5 (fun f Hf => proj1 (H6 f Hf)) (fun f Hf => proj2 (H6 f Hf)) H7) as (bss & B1 & B2 & B3 & B4 & B5).
  exists bss. split; [exact B1|]. split; [exact B2|]. split; [exact B3|]. split; [|exact B5].
  intros f. destruct (B4 f) as [E|[Hf E]]; [left; auto|right]. split; [auto|]. split; [auto|]. eapply ended_started; [apply H6|]; eauto.
Qed.

(** "a" is cut off after its second chunk, which is marked as the end; "c" is never started. *)
Example C43_example :
  gmap (map (fun s => (sid s, sidx s, ssos s, seos s))) (get_streams ex_world (ex_set ["a"; "b"; "c"] 2 true) [])
  = gen_of [[("a", 0, true, false); ("b", 0, true, false)]; [("a", 1, false, true); ("b", 1, false, true)]]%Z.
Proof. vm_compute. reflexivity. Qed.

(** C43 is false with too few files: whenever there are fewer files than streams the iteration raises RuntimeError. *)
Theorem C43_too_few_files_refuted : forall (V : Type) (w : world V) d shuffled (S : string -> list (sample V)) bs,
  dbatch d = Some bs -> (0 < bs)%Z -> ddrop d = true ->
  Permutation shuffled (dfiles d) -> (forall f, In f (dfiles d) -> yields (process_data w d f) (S f)) ->
  (zlen (dfiles d) < bs)%Z -> get_streams w d shuffled = GRaise RuntimeError.
Proof. intros V. exact dataset_drop_few. Qed.

Example C43_example_too_few : get_streams ex_world (ex_set ["a"; "b"] 3 true) [] = GRaise RuntimeError.
Proof. vm_compute. reflexivity. Qed.

(** C43 is false with two workers: the longer stream is dropped without an end flag. *)
Theorem C43_workers_refuted :
  exists (w : world Z) d ld out, new_loader (inl d) 2 false 2 true true = Ok ld /\ splittable w d /\
    loader_batches 0 w ld [1; 0] [["b"]; ["a"]] = Some (gen_of out) /\
    of_file "a" (List.concat out) <> [] /\ Forall (fun s => seos s = false) (of_file "a" (List.concat out)).
Proof.
  exists ex_world, (ex_set ["a"; "b"] 1 false), (mkLoader (inl (ex_set ["a"; "b"] 1 false)) 2 false 2 true true),
    [ [nth 0 (ex_chunks "b") (mkSample [] true true 0 0 0 ""); nth 0 (ex_chunks "a") (mkSample [] true true 0 0 0 "")];
      [nth 1 (ex_chunks "b") (mkSample [] true true 0 0 0 ""); nth 1 (ex_chunks "a") (mkSample [] true true 0 0 0 "")] ].
  split; [reflexivity|]. split; [apply (new_splittable ex_world ["a"; "b"] 1 1 (Some 1%Z) false false); [reflexivity|discriminate]|].
  split; [vm_compute; reflexivity|]. split; [vm_compute; discriminate|]. vm_compute. repeat (apply Forall_cons; [reflexivity|]). apply Forall_nil.
Qed.

(* ---------- C44 ---------- *)

(** C44: any processing order that visits every index once (argsort or shuffle give one; the given order is one). [M] is any bound of the
    values, in particular the largest. *)
Theorem C44_balanced_partition : forall values np shuffle sort sorted shuffled M, (1 <= np)%Z -> shuffle && sort = false ->
  Permutation sorted (seq 0 (length values)) -> Permutation shuffled (seq 0 (length values)) ->
  exists parts idxs, partition_by_sum values np shuffle sort sorted shuffled = Ok (parts, idxs) /\
    length idxs = Z.to_nat np /\ parts = map (map (fun i => nth i values 0%Z)) idxs /\
    Permutation (List.concat idxs) (seq 0 (length values)) /\
    ((0 <= M)%Z -> Forall (fun v => 0 <= v <= M)%Z values -> balanced M (map zsum parts)).
Proof. exact partition_spec. Qed.

(** C44: shuffling and sorting exclude each other; values cannot be put into no partition. *)
Theorem C44_rejects : forall values np sort sorted shuffled,
  partition_by_sum values np true true sorted shuffled = Err ValueError /\
  ((np <= 0)%Z -> values <> [] -> (sort = true -> sorted <> []) ->
   partition_by_sum values np false sort sorted shuffled = Err ValueError).
Proof. intros values np sort sorted shuffled. split; [reflexivity|]. apply partition_no_parts. Qed.

Example C44_example : partition_by_sum [5; 1; 4; 2; 3]%Z 2 false true [1; 3; 4; 2; 0] [] = Ok ([[1; 3; 5]; [2; 4]]%Z, [[1; 4; 0]; [3; 2]]).
Proof. reflexivity. Qed.
(** The bound is attained. *)
Example C44_example_tight : partition_by_sum [5; 5; 5]%Z 2 false false [] [] = Ok ([[5; 5]; [5]]%Z, [[0; 2]; [1]]).
Proof. reflexivity. Qed.

(* ---------- C45 ---------- *)

(** C45: the result of split. Balance holds for the numbers of chunks as estimated from the durations. *)
Theorem C45_split : forall (V : Type) (w : world V) d nw bs sh dr order M, (0 < nw)%Z -> (bs mod nw = 0)%Z -> (0 < bs)%Z -> splittable w d ->
  Permutation order (seq 0 (length (dfiles d))) ->
  exists ds, split w d nw bs sh dr order = Ok ds /\ length ds = Z.to_nat nw /\
    Permutation (List.concat (map dfiles ds)) (dfiles d) /\
    Forall (fun x => dbatch x = Some (bs / nw)%Z /\ dcn x = dcn d /\ dcd x = dcd d /\ dshuffle x = sh /\ ddrop x = dr) ds /\
    (nw * (bs / nw) = bs)%Z /\
    ((0 <= M)%Z -> Forall (fun f => 0 <= estimate d f <= M)%Z (dfiles d) ->
     balanced M (map (fun x => zsum (map (estimate d) (dfiles x))) ds)).
Proof.
  intros V w d nw bs sh dr order M H1 H2 H3 H4 H5. destruct (split_spec w d nw bs sh dr order M H1 H2 H3 H4 H5) as (ds & D1 & D2 & D3 & D4 & D5).
  exists ds. split; [auto|]. split; [auto|]. split; [auto|]. split; [|split; [|auto]].
  - eapply Forall_impl; [|exact D4]. cbn beta. intros x (_ & A & B & C & D & E). auto.
  - pose proof (Z.div_mod bs nw ltac:(lia)). lia.
Qed.

(** C45: refusals. *)
Theorem C45_rejects : forall (V : Type) (w : world V) d nw bs sh dr order,
  (nw <= 0)%Z \/ (0 < nw)%Z /\ (bs mod nw <> 0)%Z -> split w d nw bs sh dr order = Err ValueError.
Proof. intros V. exact split_rejects. Qed.

(** A dataset constructed from files with readable headers can be split. *)
Theorem C45_constructed_can_be_split : forall (V : Type) (w : world V) files cn cd bs sh dr d,
  new_dataset w files cn cd None [] bs sh dr = Ok d -> cn <> 0%Z -> splittable w d.
Proof. intros V. exact new_splittable. Qed.

Example C45_example :
  match split ex_world (ex_set ["a"; "b"; "c"] 1 false) 2 4 false false [2; 1; 0] with
  | Ok ds => map (fun x => (dfiles x, dbatch x)) ds = [(["c"; "b"], Some 2%Z); (["a"], Some 2%Z)]
  | Err _ => False
  end /\ map (estimate (ex_set ["a"; "b"; "c"] 1 false)) ["a"; "b"; "c"] = [2; 2; 0]%Z.
Proof. vm_compute. auto. Qed.

(** C45 is false for the true numbers of chunks: files shorter than half a chunk count as nothing, so all go to the first worker.
    Four files of one frame (one chunk each, chunks of four frames) for two workers: four chunks against none, although no file has more
    than one chunk. *)
Definition short_world : world Z := mkWorld (fun _ => Ok ([1], 4)%Z) (fun _ => Ok (1, 4)%Z) (fun x => x).
Definition short_set : dataset :=
  match new_dataset short_world ["a"; "b"; "c"; "d"] 1 1 None [] (Some 1%Z) false false with Ok d => d | Err _ => mkDataset [] 0 0 [] [] None false false end.
Theorem C45_true_chunks_refuted :
  exists (w : world Z) d order ds (count : string -> Z),
    Permutation order (seq 0 (length (dfiles d))) /\ splittable w d /\
    (forall f, In f (dfiles d) -> exists l, yields (process_data w d f) l /\ zlen l = count f /\ count f = 1%Z) /\
    split w d 2 2 false false order = Ok ds /\ map (fun x => zsum (map count (dfiles x))) ds = [4; 0]%Z.
Proof.
  exists short_world, short_set, [0; 1; 2; 3],
    [mkDataset ["a"; "b"; "c"; "d"] 1 1 [("a", (1, 4)); ("b", (1, 4)); ("c", (1, 4)); ("d", (1, 4))] [("a", (1, 4)); ("b", (1, 4)); ("c", (1, 4)); ("d", (1, 4))] (Some 1) false false;
     mkDataset [] 1 1 [] [] (Some 1) false false]%Z, (fun _ => 1%Z).
  split; [apply Permutation_refl|]. split; [apply (new_splittable short_world ["a"; "b"; "c"; "d"] 1 1 (Some 1%Z) false false); [reflexivity|discriminate]|].
  split; [|split; vm_compute; reflexivity].
  intros f Hf. exists [mkSample [1%Z] true true 1 0 1 f]. split; [vm_compute; reflexivity|]. split; reflexivity.
Qed.

(* ---------- C46 ---------- *)

(** C46: enough fuel (the number of rounds of the loop) always exists, so the loop terminates, without exception. Every file's samples
    are delivered once and in order, in batches of different files no larger than the first batch of the input, which the code takes
    as the batch size; files start and end in groups. *)
Theorem C46_synchronous : forall (V : Type) (bss : list (list (sample V))) l t, bss = l :: t -> well_formed bss ->
  exists n out, (forall fuel, n <= fuel -> make_streams_synchronous fuel (gen_of bss) = Some (gen_of out)) /\
    (forall f, of_file f (List.concat out) = of_file f (List.concat bss)) /\
    Forall (fun c : list (sample V) => 1 <= length c <= length l /\ NoDup (map sid c)) out /\ in_groups out.
Proof. intros V. exact sync_spec. Qed.

(** "c" starts while "a" and "d" still run; it is held back until both have ended. *)
Definition ev (f : string) (s e : bool) (k : Z) : sample Z := mkSample [k] s e 1 k 0 f.
Definition overlapping : list (list (sample Z)) :=
  [ [ev "a" true false 0; ev "b" true true 0]; [ev "a" false false 1; ev "c" true false 0];
    [ev "a" false true 2; ev "c" false true 1]; [ev "d" true true 0] ].
Example C46_example_input : well_formed overlapping.
Proof.
  split.
  - exists [ev "a" true false 0; ev "b" true true 0], (tl overlapping). split; [reflexivity|]. split; [discriminate|]. repeat constructor.
  - intros f. unfold overlapping, ev. cbn [List.concat app]. unfold of_file. cbn [filter sid].
    destruct (String.eqb_spec "a" f), (String.eqb_spec "b" f), (String.eqb_spec "c" f), (String.eqb_spec "d" f); subst; try congruence;
      try (left; reflexivity); right; (split; [discriminate|]); intros k s Hk;
      destruct k as [|[|[|k]]]; cbn in Hk; try discriminate; try (destruct k; discriminate); inversion Hk; subst; split; reflexivity.
Qed.
Example C46_example : forall fuel, 7 <= fuel ->
  option_map (gmap (map (fun s => (sid s, sidx s)))) (make_streams_synchronous fuel (gen_of overlapping))
  = Some (gen_of [[("a", 0); ("b", 0)]; [("a", 1)]; [("a", 2)]; [("c", 0); ("d", 0)]; [("c", 1)]])%Z.
Proof.
  intros fuel H. do 7 (destruct fuel as [|fuel]; [lia|]). vm_compute. reflexivity.
Qed.

(** Outside the claim: an empty stream raises RuntimeError. *)
Theorem C46_empty_stream_refuted : forall V fuel, make_streams_synchronous fuel (@GStop (list (sample V))) = Some (GRaise RuntimeError).
Proof. reflexivity. Qed.

(* ---------- C47 ---------- *)

(** C47: a loader over one dataset. The workers get parts of the dataset; whatever their shuffles, the loader terminates, delivers every
    chunk of every file once and in order, in batches of at most batch_size samples of different files. Without overlapping
    batches the files also start in groups; the dataset must then not be empty. *)
Theorem C47_loader : forall (V : Type) (w : world V) d bs sh nw ov ld (S : string -> list (sample V)) order,
  new_loader (inl d) bs sh nw ov false = Ok ld ->
  (0 < bs)%Z -> (bs mod (Z.max 1 nw) = 0)%Z -> splittable w d -> NoDup (dfiles d) -> (ov = false -> dfiles d <> []) ->
  Permutation order (seq 0 (length (dfiles d))) ->
  (forall f, In f (dfiles d) -> yields (process_data w d f) (S f) /\ complete_file (S f)) ->
  exists ds, loader_datasets w ld order = Ok ds /\ length ds = Z.to_nat (Z.max 1 nw) /\ Permutation (List.concat (map dfiles ds)) (dfiles d) /\
  forall shuffles, Forall2 (@Permutation string) shuffles (map dfiles ds) ->
  exists n out, (forall fuel, n <= fuel -> loader_batches fuel w ld order shuffles = Some (gen_of out)) /\
    Forall (fun b => 1 <= length b <= Z.to_nat bs /\ NoDup (map sid b)) out /\
    (forall f, In f (dfiles d) -> of_file f (List.concat out) = S f) /\
    (forall s, In s (List.concat out) -> In (sid s) (dfiles d)) /\
    (ov = false -> in_groups out).
Proof.
  intros V w d bs sh nw ov ld S order H1 H2 H3 H4 H5 H6 H7 H8.
  destruct (loader_spec w d bs sh nw ov ld S order H1 H2 H3 H4 H5 H6 H7 H8) as (ds & D1 & D2 & D3 & D4).
  exists ds. split; [exact D1|]. split; [exact D2|]. split; [exact D3|]. intros shuffles Hs.
  destruct (D4 shuffles Hs) as (n & out & O1 & O2 & O3 & O4 & O5). exists n, out.
  split; [exact O1|]. split; [exact O2|]. split; [exact O3|]. split; [exact O4|]. intros E. apply (O5 E).
Qed.

(** C47 for a list of datasets without drop_last; their batch sizes add up. *)
Theorem C47_loader_of_list : forall (V : Type) (w : world V) ds bs sh ov ld (S : string -> list (sample V)) order ns,
  new_loader (inr ds) bs sh 0 ov false = Ok ld ->
  Forall2 (fun d n => dbatch d = Some n /\ (0 < n)%Z /\ ddrop d = false) ds ns ->
  NoDup (List.concat (map dfiles ds)) ->
  (forall d f, In d ds -> In f (dfiles d) -> yields (process_data w d f) (S f)) ->
  (forall f, In f (List.concat (map dfiles ds)) -> complete_file (S f)) ->
  (ov = false -> List.concat (map dfiles ds) <> []) ->
  forall shuffles, Forall2 (@Permutation string) shuffles (map dfiles ds) ->
  exists n out, (forall fuel, n <= fuel -> loader_batches fuel w ld order shuffles = Some (gen_of out)) /\
    Forall (fun b => 1 <= length b <= list_sum (map Z.to_nat ns) /\ NoDup (map sid b)) out /\
    (forall f, In f (List.concat (map dfiles ds)) -> of_file f (List.concat out) = S f) /\
    (forall s, In s (List.concat out) -> In (sid s) (List.concat (map dfiles ds))) /\
    (ov = false -> in_groups out).
Proof.
  intros V w ds bs sh ov ld S order ns Hld. assert (El : ld = mkLoader (inr ds) bs sh (zlen ds) ov false) by (cbn in Hld; congruence). subst ld.
  intros H1 H2 H3 H4 H5 shuffles Hs.
  destruct (deliver_spec w (mkLoader (inr ds) bs sh (zlen ds) ov false) S ds order ns eq_refl eq_refl H1 H2 H3 H4 H5 shuffles Hs)
    as (n & out & O1 & O2 & O3 & O4 & O5). exists n, out.
  split; [exact O1|]. split; [exact O2|]. split; [exact O3|]. split; [exact O4|]. intros E. apply (O5 E).
Qed.

(** C47 with drop_last: full batches; every file is delivered in order from its start, and the files of at least one worker are delivered up
    to a chunk with the end flag (those of the others may be cut off without one, C43_workers_refuted). *)
Theorem C47_loader_drop_last : forall (V : Type) (w : world V) d bs sh nw ld (S : string -> list (sample V)) order,
  new_loader (inl d) bs sh nw true true = Ok ld ->
  (0 < bs)%Z -> (bs mod (Z.max 1 nw) = 0)%Z -> splittable w d -> NoDup (dfiles d) ->
  Permutation order (seq 0 (length (dfiles d))) ->
  (forall f, In f (dfiles d) -> yields (process_data w d f) (S f) /\ complete_file (S f)) ->
  exists ds, loader_datasets w ld order = Ok ds /\ length ds = Z.to_nat (Z.max 1 nw) /\ Permutation (List.concat (map dfiles ds)) (dfiles d) /\
  forall shuffles, Forall2 (@Permutation string) shuffles (map dfiles ds) ->
  Forall (fun e => (bs / Z.max 1 nw <= zlen (dfiles e))%Z) ds ->
  exists out, (forall fuel, loader_batches fuel w ld order shuffles = Some (gen_of out)) /\ out <> [] /\
    Forall (fun b => length b = Z.to_nat bs /\ NoDup (map sid b)) out /\
    (forall f, (exists n, of_file f (List.concat out) = firstn n (S f)) \/ ended_prefix (of_file f (List.concat out)) (S f)) /\
    (forall s, In s (List.concat out) -> In (sid s) (dfiles d)) /\
    (exists e, In e ds /\ forall f, In f (dfiles e) ->
       of_file f (List.concat out) = [] \/ ended_prefix (of_file f (List.concat out)) (S f)).
Proof. intros V. exact loader_drop_spec. Qed.

(** Two workers, files of three and two chunks: the third chunk of "a" is dropped. *)
Example C47_example_drop_last :
  option_map (gmap (map (fun s => (sid s, sidx s, seos s))))
    (loader_batches 0 ex_world (mkLoader (inl (ex_set ["a"; "b"] 1 false)) 2 false 2 true true) [1; 0] [["b"]; ["a"]])
  = Some (gen_of [[("b", 0, false); ("a", 0, false)]; [("b", 1, true); ("a", 1, false)]])%Z.
Proof. vm_compute. reflexivity. Qed.

(** C47: with the dataset's own collate function every batch is collated. *)
Theorem C47_collated : forall (V : Type) fuel (w : world V) ld order shuffles out (z : V),
  loader_batches fuel w ld order shuffles = Some (gen_of out) -> Forall (fun b => 1 <= length b) out ->
  exists res, loader_iter fuel w ld order shuffles (Some (custom_collate z)) = Some (gen_of res) /\
    Forall2 (fun b r => custom_collate z b = Ok r) out res.
Proof. intros V. exact loader_collates. Qed.

Definition ex_loader (ov : bool) : loader := mkLoader (inl (ex_set ["a"; "b"; "c"] 1 false)) 2 false 2 ov false.
Example C47_example_hypotheses :
  new_loader (inl (ex_set ["a"; "b"; "c"] 1 false)) 2 false 2 true false = Ok (ex_loader true) /\
  splittable ex_world (ex_set ["a"; "b"; "c"] 1 false) /\ Permutation [2; 1; 0] (seq 0 3) /\
  (forall f, In f ["a"; "b"; "c"] -> yields (process_data ex_world (ex_set ["a"; "b"; "c"] 1 false) f) (ex_chunks f) /\ complete_file (ex_chunks f)).
Proof.
  split; [reflexivity|]. split; [apply (new_splittable ex_world ["a"; "b"; "c"] 1 1 (Some 1%Z) false false); [reflexivity|discriminate]|].
  split; [cbn; apply (Permutation_rev [2; 1; 0])|].
  intros f [<-|[<-|[<-|[]]]]; (split; [vm_compute; reflexivity|]); (split; [discriminate|]); intros k s Hk;
    destruct k as [|[|[|k]]]; cbn in Hk; try discriminate; try (destruct k; discriminate); inversion Hk; subst; split; reflexivity.
Qed.
Example C47_example : forall fuel, 10 <= fuel ->
  option_map (gmap (map (fun s => (sid s, sidx s)))) (loader_batches fuel ex_world (ex_loader true) [2; 1; 0] [["c"; "b"]; ["a"]])
  = Some (gen_of [[("c", 0); ("a", 0)]; [("b", 0); ("a", 1)]; [("b", 1); ("a", 2)]])%Z /\
  option_map (gmap (map (fun s => (sid s, sidx s)))) (loader_batches fuel ex_world (ex_loader false) [2; 1; 0] [["c"; "b"]; ["a"]])
  = Some (gen_of [[("c", 0); ("a", 0)]; [("a", 1)]; [("a", 2)]; [("b", 0)]; [("b", 1)]])%Z.
Proof. intros fuel H. do 10 (destruct fuel as [|fuel]; [lia|]). split; vm_compute; reflexivity. Qed.

(** C47 is false for an empty dataset without overlapping batches: RuntimeError instead of no batches. *)
Theorem C47_empty_dataset_refuted :
  exists (w : world Z) d ld, new_dataset w [] 1 1 None [] (Some 1%Z) false false = Ok d /\ new_loader (inl d) 2 false 2 false false = Ok ld /\
    forall fuel, loader_batches fuel w ld [] [[]; []] = Some (GRaise RuntimeError).
Proof.
  exists ex_world, (ex_set [] 1 false), (mkLoader (inl (ex_set [] 1 false)) 2 false 2 false false). split; [reflexivity|]. split; [reflexivity|].
  intros fuel. vm_compute. reflexivity.
Qed.

(** C47 is false without a collate function: the default is computed but not stored, so the first batch raises TypeError. *)
Theorem C47_default_collate_refuted : forall (V : Type) fuel (w : world V) ld order shuffles b out,
  loader_batches fuel w ld order shuffles = Some (gen_of (b :: out)) ->
  loader_iter fuel w ld order shuffles (@None (list (sample V) -> res (batch V))) = Some (GRaise TypeError).
Proof. intros V fuel w ld order shuffles b out H. unfold loader_iter. rewrite H. reflexivity. Qed.

(** C47: refused combinations. *)
Theorem C47_rejects : forall d ds bs sh nw ov,
  new_loader d bs sh nw false true = Err ValueError /\ ((0 < nw)%Z -> new_loader (inr ds) bs sh nw ov false = Err ValueError).
Proof.
  intros d ds bs sh nw ov. split; [reflexivity|]. intros H. unfold new_loader. cbn [andb]. destruct (Z.ltb_spec 0 nw); [reflexivity|lia].
Qed.

(* ---------- C48 ---------- *)

(** C48: there is a stable sort [sl] of the samples by decreasing length such that the result has their fields as metadata and their data,
    padded to the widest, as rows. *)
Theorem C48_collate : forall (V : Type) (z : V) (l : list (sample V)), l <> [] ->
  exists r sl, custom_collate z l = Ok r /\
    StronglySorted (fun x y => slen y <= slen x)%Z sl /\ Permutation sl l /\
    (forall n, filter (fun x => slen x =? n)%Z sl = filter (fun x => slen x =? n)%Z l) /\
    bm r = mkMeta (map sid sl) (map ssos sl) (map seos sl) (map slen sl) (Some (map sidx sl)) /\
    Forall2 (fun row s => row = sdata s ++ repeat z (bw r - length (sdata s)) /\ length row = bw r) (bd r) sl /\
    (exists s, In s l /\ bw r = length (sdata s)).
Proof. intros V. exact collate_spec. Qed.

Theorem C48_empty_batch : forall (V : Type) (z : V), custom_collate z [] = Err IndexError.
Proof. reflexivity. Qed.

Example C48_example :
  custom_collate 0%Z [mkSample [1] true false 1 0 3 "a"; mkSample [2; 3] false true 2 4 5 "b"; mkSample [4] true true 1 0 1 "c"]%Z
  = Ok (mkBatch 2 [[2; 3]; [1; 0]; [4; 0]]%Z (mkMeta ["b"; "a"; "c"] [false; true; true] [true; false; true] [2; 1; 1]%Z (Some [4; 0; 0]%Z))).
Proof. reflexivity. Qed.

(* ---- assumptions *)
Print Assumptions C40_file_chunks.
Print Assumptions C40_chunk_size.
Print Assumptions C40_rejects.
Print Assumptions C41_sample_data_refuted.
Print Assumptions C41_pieces_partial.
Print Assumptions C42_every_chunk_once.
Print Assumptions C43_drop_last.
Print Assumptions C43_too_few_files_refuted.
Print Assumptions C43_workers_refuted.
Print Assumptions C44_balanced_partition.
Print Assumptions C44_rejects.
Print Assumptions C45_split.
Print Assumptions C45_rejects.
Print Assumptions C45_constructed_can_be_split.
Print Assumptions C45_true_chunks_refuted.
Print Assumptions C46_synchronous.
Print Assumptions C46_empty_stream_refuted.
Print Assumptions C47_loader.
Print Assumptions C47_loader_of_list.
Print Assumptions C47_loader_drop_last.
Print Assumptions C47_collated.
Print Assumptions C47_empty_dataset_refuted.
Print Assumptions C47_default_collate_refuted.
Print Assumptions C47_rejects.
Print Assumptions C48_collate.
Print Assumptions C48_empty_batch.

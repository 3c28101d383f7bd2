(** Theorems of record: the example program examples/wav2letter.py (C73).

    [random_chunks], [batch_loop] and [program] model the program, [target] the model in offline mode; the random numbers
    are inputs, and a result of None says that the program wants more of them. See Program.v. [lasting] computes from the
    sizes of the chunks alone whether one of them becomes empty on its way through the convolutions; see ProgramSpec.v. *)

From Coq Require Import String List ZArith Bool Lia.
From Coq Require Import ZifyBool.
From Verif Require Import Py Meta MetaSpec Pad Conv ConvSpec Stack StackSpec Collector CollectorSpec Pipeline PipelineSpec Program
  ProgramSpec ProgramProofs ProgramRunProofs.
Import ListNotations.
Open Scope string_scope.
Open Scope list_scope.
Open Scope nat_scope.

(** Sizes drawn from [mn, mx] with 1 <= mn: positive chunks that add up, all but the last as drawn, one draw for each. *)
Theorem C73_random_chunks : forall mn mx full draws cs rest, (1 <= mn)%Z -> (0 < full)%Z ->
  Forall (fun d => mn <= d <= mx)%Z draws -> random_chunks full [] draws = Some (cs, rest) ->
  random_cut mn mx full cs /\ exists used, draws = used ++ rest /\ length used = length cs.
Proof. exact random_chunks_cut. Qed.

(** With positive draws the loop ends as soon as they reach the length; with draws of 0 or less it never ends. *)
Theorem C73_random_chunks_end : forall full draws,
  (Forall (fun d => 0 < d)%Z draws -> (random_chunks full [] draws <> None <-> (full <= zsum draws)%Z)) /\
  (Forall (fun d => d <= 0)%Z draws -> (0 < full)%Z -> random_chunks full [] draws = None).
Proof.
  intros full draws. split; [apply random_chunks_ends|]. intros H Hf. now apply random_chunks_stuck.
Qed.

Example C73_example_chunks :
  random_chunks 10 [] [4; 3; 6; 5]%Z = Some ([4; 3; 3], [5])%Z /\ random_cut 3 6 10 [4; 3; 3]%Z /\
  random_chunks 10 [] [4; 3]%Z = None /\ all_chunks [10; 5]%Z [4; 3; 6; 5]%Z = Some [[4; 3; 3]; [5]]%Z.
Proof.
  split; [reflexivity|]. split; [|split; reflexivity]. split; [reflexivity|]. exists [4; 3]%Z, 3%Z. split; [reflexivity|].
  split; [repeat (constructor; [lia|]); constructor|lia].
Qed.

(** The batches: not empty, no two chunks of a stream in one, and all together every chunk once, in order. *)
Theorem C73_batches_deal_all_chunks : forall (A : Type) (who : A -> string) data coins steps,
  NoDup (map fst data) -> Forall (fun q => Forall (fun a => who a = fst q) (snd q)) data ->
  batch_loop data coins = Some steps -> deals who data steps.
Proof. intros A who data coins steps Hn Hl H. eapply rounds_deal; eauto. Qed.

(** The loop ends exactly if there are as many heads as chunks. *)
Theorem C73_batches_end : forall (A : Type) (data : list (string * list A)) coins,
  batch_loop data coins <> None <-> length (List.concat (map snd data)) <= heads coins.
Proof.
  intros A data coins. rewrite batch_loop_ends. unfold total.
  assert (E : list_sum (map (fun q : string * list A => length (snd q)) data) = length (List.concat (map snd data))).
  { induction data as [|q data IH]; [reflexivity|]. cbn [map list_sum fold_right List.concat]. unfold list_sum in *. now rewrite app_length, IH. }
  now rewrite E.
Qed.

Example C73_example_batches :
  batch_loop [("a", [1; 2; 3]); ("b", [10; 20])] [true; false; false; false; true; true; true; true]
  = Some [[1]; [2; 10]; [3; 20]] /\
  batch_loop [("a", [1; 2; 3]); ("b", [10; 20])] [true; false; false; false; true; true; true] = None.
Proof. split; reflexivity. Qed.

(** Given chunks and network, all ways to batch the chunks succeed if and only if no chunk becomes empty: not in front of
    a layer, not at the end. *)
Theorem C73_every_schedule_succeeds_iff : forall (V : Type) (Ls : list (layer V)) (z z' : V) items pieces,
  Forall smooth_layer Ls -> zero_preserving z Ls z' -> NoDup (map fst items) -> items_ok items pieces ->
  ((forall sched, scheduled items pieces sched -> exists ys, stream_through Ls z (map (map (single_tensor false)) sched) = Ok ys) <->
   Forall (fun l => lasting (shapes_of Ls) (map (fun r => length (cdat r)) l)) pieces).
Proof. intros V. exact every_schedule. Qed.

(** The sizes after a convolution are those of [out_sizes]. *)
Theorem C73_sizes_after_a_convolution : forall (V : Type) (c : conv_cfg V) (l : list (chunk V)), complete l ->
  map (fun r => length (cdat r)) (layer_chunks (LConv c) l) = out_sizes (kspan c, strd c, padn c) (map (fun r => length (cdat r)) l).
Proof. intros V. exact layer_exact. Qed.

(** A sufficient condition: lower bounds for first, middle and last chunks, one step per convolution. *)
Theorem C73_wide_enough : forall shs a m e ns, wide shs a m e -> at_least a m e ns -> lasting shs ns.
Proof. exact wide_lasting. Qed.

(** Kernel 3 with stride 2 and padding 1, then kernel 3 with padding 1. *)
Definition small_shapes : list shape := [(3, 2, 1); (3, 1, 1)].
Example C73_example_sizes :
  out_sizes (3, 2, 1) [5; 4; 3] = [2; 2; 2] /\ out_sizes (3, 1, 1) [2; 2; 2] = [1; 2; 3] /\
  wide small_shapes 4 2 1 /\ at_least 4 2 1 [5; 4; 3] /\ ~ lasting small_shapes [4; 1; 3].
Proof.
  split; [reflexivity|]. split; [reflexivity|]. split; [cbn; lia|]. split.
  - exists 5, [4], 3. split; [reflexivity|]. split; [lia|]. split; [|lia]. repeat constructor.
  - intros [_ [H _]]. vm_compute in H. apply Forall_inv_tail, Forall_inv in H. lia.
Qed.

(** The program: if no chunk becomes empty, then with as many heads as chunks the program ends and has collected for each
    id what the model gives offline; with fewer it wants more coins. No call raises. *)
Theorem C73_program : forall (V : Type) (Ls : list (layer V)) (z z' : V) items mn mx draws coins css,
  Forall smooth_layer Ls -> zero_preserving z Ls z' ->
  items <> [] -> NoDup (map fst items) -> Forall (fun it => snd it <> []) items ->
  (1 <= mn)%Z -> Forall (fun d => mn <= d <= mx)%Z draws ->
  all_chunks (map (fun it => Z.of_nat (length (snd it))) items) draws = Some css ->
  Forall (fun cs => lasting (shapes_of Ls) (map Z.to_nat cs)) css ->
  if length (List.concat css) <=? heads coins
  then exists outs, program Ls z items draws coins = Some (Ok outs) /\ mapM (target Ls) (map snd items) = Ok outs
  else program Ls z items draws coins = None.
Proof. intros V. exact program_random. Qed.

(** Enough draws. *)
Theorem C73_enough_draws : forall mn mx fulls draws, (1 <= mn)%Z -> Forall (fun n => 0 < n)%Z fulls ->
  Forall (fun d => mn <= d <= mx)%Z draws -> (zsum fulls <= Z.of_nat (length draws))%Z -> all_chunks fulls draws <> None.
Proof. intros mn mx fulls draws Hmn. exact (all_chunks_enough mn mx Hmn fulls draws). Qed.

Definition digits (l : list Z) : Z := fold_right (fun a s => (a + 10 * s)%Z) 0%Z l.
Definition small_network : list (layer Z) :=
  [LConv (mkCfg 3 1 2 1 digits 0%Z 0%Z); LMap (Z.max 0); LConv (mkCfg 3 1 1 1 digits 0%Z 0%Z)].
Definition small_items : list (string * list Z) := [("a", [1; 2; 3; 4; 5; 6; 7]); ("b", [1; 2; 3; 4; 5; 6; 7; 8])]%Z.

Example C73_example_program :
  Forall smooth_layer small_network /\ zero_preserving 0%Z small_network 0%Z /\
  all_chunks [7; 8]%Z [4; 4; 5; 4]%Z = Some [[4; 3]; [5; 3]]%Z /\
  Forall (fun cs => lasting (shapes_of small_network) (map Z.to_nat cs)) [[4; 3]; [5; 3]]%Z /\
  program small_network 0%Z small_items [4; 4; 5; 4]%Z [true; false; true; true; true]
    = Some (Ok [[45300; 69930; 14572; 1414]; [45300; 69930; 94572; 9414]]%Z) /\
  mapM (target small_network) (map snd small_items) = Ok [[45300; 69930; 14572; 1414]; [45300; 69930; 94572; 9414]]%Z.
Proof.
  split; [constructor; [vm_compute; lia|constructor; [exact I|constructor; [vm_compute; lia|constructor]]]|].
  split; [vm_compute; auto|]. split; [reflexivity|]. split.
  - constructor; [|constructor; [|constructor]]; vm_compute; repeat (first [apply Forall_cons; [lia|] | apply Forall_nil | exact I | split]).
  - split; vm_compute; reflexivity.
Qed.

(** A sequence too short for any output, batched with a longer one: no entry for it is collected. *)
Example C73_example_too_short :
  program [LConv (mkCfg 3 1 1 0 digits 0%Z 0%Z)] 0%Z [("a", [1; 2; 3; 4]); ("b", [1])]%Z [4; 1]%Z [true; true] = Some (Err KeyError).
Proof. vm_compute. reflexivity. Qed.

(** The program as it is: a network with the convolutions of Wav2Letter, sequences of more than 2 seconds, chunks of 1 to
    2 seconds. If the last chunk of every sequence has at least 115 samples, nothing raises and the collected outputs are
    the offline outputs. *)
Theorem C73_wav2letter : forall (V : Type) (Ls : list (layer V)) (z z' : V) items draws coins css,
  Forall smooth_layer Ls -> shapes_of Ls = wav2letter_shapes -> zero_preserving z Ls z' ->
  items <> [] -> NoDup (map fst items) ->
  Forall (fun it => 32000 < Z.of_nat (length (snd it)))%Z items -> Forall (fun d => 16000 <= d <= 32000)%Z draws ->
  all_chunks (map (fun it => Z.of_nat (length (snd it))) items) draws = Some css ->
  Forall (fun cs => 115 <= last cs 0)%Z css -> length (List.concat css) <= heads coins ->
  exists outs, program Ls z items draws coins = Some (Ok outs) /\ mapM (target Ls) (map snd items) = Ok outs.
Proof. intros V. exact wav2letter_run. Qed.

(** Such a network, such lengths, such draws. *)
Definition some_layer (sh : shape) : layer Z := let '(k, s, p) := sh in LConv (mkCfg k 1 s p digits 0%Z 0%Z).
Example C73_example_wav2letter :
  shapes_of (map some_layer wav2letter_shapes) = wav2letter_shapes /\
  Forall smooth_layer (map some_layer wav2letter_shapes) /\ zero_preserving 0%Z (map some_layer wav2letter_shapes) 0%Z /\
  all_chunks [80000; 100000]%Z [16000; 30000; 20000; 25000; 32000; 32000; 31000; 20000]%Z
    = Some [[16000; 30000; 20000; 14000]; [32000; 32000; 31000; 5000]]%Z.
Proof.
  split; [vm_compute; reflexivity|]. split.
  - vm_compute. repeat (constructor; [split; [lia|lia]|]). constructor.
  - split; [vm_compute; tauto|vm_compute; reflexivity].
Qed.

(** Without the condition on the last chunk the program can raise: it is met by a sequence of 80046 samples whose last
    chunk of one sample is alone in its batch. *)
Theorem C73_short_last_chunk_refuted : forall (V : Type) (Ls : list (layer V)) (z z' : V) (d : list V),
  Forall smooth_layer Ls -> shapes_of Ls = wav2letter_shapes -> zero_preserving z Ls z' -> Z.of_nat (length d) = 80046%Z ->
  exists e, program Ls z [("a", d)] [16000; 16000; 16000; 16000; 16045; 16000]%Z (repeat true 6) = Some (Err e).
Proof. intros V Ls z z' d. apply wav2letter_fails. Qed.

(** Or it ends without an exception, but the output lacks columns: the end of "a" arrives together with the start of
    "b" and gives nothing at the first convolution, so the second convolution never sees the end. *)
Definition short_network : list (layer Z) :=
  [LConv (mkCfg 4 1 3 0 digits 0%Z 0%Z); LConv (mkCfg 2 1 1 1 digits 0%Z 0%Z)].
Theorem C73_silent_loss_refuted : exists draws coins,
  Forall (fun d => 7 <= d <= 8)%Z draws /\ Forall smooth_layer short_network /\ zero_preserving 0%Z short_network 0%Z /\
  program short_network 0%Z [("a", [1; 2; 3; 4; 5; 6; 7; 8; 9]); ("b", [1; 2; 3; 4; 5; 6; 7; 8; 9; 8])]%Z draws coins
    = Some (Ok [[43210; 80861]; [43210; 80861; 97524; 8987]]%Z) /\
  target short_network [1; 2; 3; 4; 5; 6; 7; 8; 9]%Z = Ok [43210; 80861; 7654]%Z.
Proof.
  exists [7; 7; 7; 7]%Z, [true; false; true; true; true].
  split; [repeat (constructor; [lia|]); constructor|]. split; [constructor; [vm_compute; lia|constructor; [vm_compute; lia|constructor]]|].
  split; [vm_compute; auto|]. split; vm_compute; reflexivity.
Qed.

(* ---- assumptions *)
Print Assumptions C73_random_chunks.
Print Assumptions C73_random_chunks_end.
Print Assumptions C73_batches_deal_all_chunks.
Print Assumptions C73_batches_end.
Print Assumptions C73_every_schedule_succeeds_iff.
Print Assumptions C73_sizes_after_a_convolution.
Print Assumptions C73_wide_enough.
Print Assumptions C73_program.
Print Assumptions C73_enough_draws.
Print Assumptions C73_wav2letter.
Print Assumptions C73_short_last_chunk_refuted.
Print Assumptions C73_silent_loss_refuted.

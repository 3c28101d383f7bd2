(** Properties of chunk indices on their way through a network into the collector (C89).

    [tensor_of z t] is the batch tensor with the rows [trows t], which carries chunk indices iff [th t]; see ConvSpec.v.
    [stream_loop] is the loop of examples/wav2letter.py over the batches (Program.v). *)

From Coq Require Import String List ZArith Bool Lia.
From Coq Require Import ZifyBool.
From Verif Require Import Py Meta MetaSpec Pad Conv ConvSpec Stack StackSpec Collector CollectorSpec PipelineSpec Program
  KeepSpec KeepProofs KeepNetProofs KeepGroupProofs.
Import ListNotations.
Open Scope string_scope.
Open Scope list_scope.
Open Scope nat_scope.

(** The output of a convolution for a batch carries chunk indices iff the batch does and either the kernel has width 1 or
    the same number of columns is waiting in the buffers of all its rows. *)
Theorem C89_indices : forall (V : Type) (c : conv_cfg V) (sched : list (tens V)) ys st' k t y,
  valid_cfg c -> strd c <= kspan c -> good_schedule (map trows sched) -> Forall (fits c) sched ->
  conv_run c no_buffers (map (tensor_of (zin c)) sched) = Ok (ys, st') ->
  nth_error sched k = Some t -> nth_error ys k = Some y ->
  (chs (bm y) <> None <->
   th t = true /\ (kspan c = 1 \/ forall r q, In r (trows t) -> In q (trows t) ->
                                    waiting c (firstn k (map trows sched)) r = waiting c (firstn k (map trows sched)) q)).
Proof.
  intros V c sched ys st' k t y Hv Hs Hg Hf H Ht Hy. pose proof (conv_indices c sched ys st' Hv Hs Hg Hf H) as E.
  cbn [carried] in E. apply (f_equal (fun l => nth_error l k)) in E.
  rewrite (map_nth_error _ _ _ Hy) in E. symmetry in E. rewrite (map_nth_error _ k (seq 0 (length (map trows sched))) (d := k)) in E.
  2:{ assert (k < length sched) by (apply nth_error_Some; congruence).
      rewrite (nth_error_nth' _ 0) by (rewrite seq_length, map_length; auto). rewrite seq_nth by (rewrite map_length; auto). reflexivity. }
  injection E as E. rewrite (nth_error_nth (map th sched) k false (map_nth_error th k sched Ht)) in E.
  rewrite (nth_error_nth (map trows sched) k [] (map_nth_error trows k sched Ht)) in E.
  transitivity (some_chs (bm y) = true); [unfold some_chs; destruct (chs (bm y)); intuition congruence|].
  rewrite <- E, andb_true_iff. unfold keeps. rewrite orb_true_iff, Nat.eqb_eq, forallb_forall. setoid_rewrite forallb_forall.
  setoid_rewrite Nat.eqb_eq. intuition auto.
Qed.

(** A network: which outputs carry chunk indices is determined layer by layer in this way. *)
Theorem C89_network_indices : forall (V : Type) Ls (z z' : V) (sched : list (tens V)) ys sts', Forall good_layer Ls -> zero_preserving z Ls z' ->
  good_schedule (map trows sched) -> Forall tight sched -> (forall i, survives Ls (stream_of i (map trows sched))) ->
  stack_run Ls (fresh Ls) (map (tensor_of z) sched) = Ok (ys, sts') ->
  exists outs, ys = map (tensor_of z') outs /\ Forall tight outs /\ map trows outs = out_schedule Ls (map trows sched) /\
    map th outs = carried Ls (map trows sched) (map th sched).
Proof. intros V Ls z z'. exact (stack_indices z' Ls z). Qed.

(** The loop into a collector: if for every stream either all non-empty chunks of the output carry chunk indices or none
    does, nothing raises and the collector has for each stream the offline output, with the chunk index of its last
    chunk or without. Otherwise the collector raises ValueError. *)
Theorem C89_collected : forall (V : Type) Ls (z z' : V) (sched : list (tens V)) ys sts', Forall good_layer Ls -> zero_preserving z Ls z' ->
  good_schedule (map trows sched) -> Forall tight sched ->
  (forall i, stream_of i (map trows sched) = [] \/ complete (stream_of i (map trows sched))) ->
  (forall i, survives_through Ls (stream_of i (map trows sched))) ->
  stack_run Ls (fresh Ls) (map (tensor_of z) sched) = Ok (ys, sts') ->
  let hs := carried Ls (map trows sched) (map th sched) in
  let os := out_schedule Ls (map trows sched) in
  (agreeing hs os -> exists c, stream_loop Ls (fresh Ls) new_collector (map (tensor_of z) sched) = Ok c /\
     forall i, (stream_of i (map trows sched) = [] -> entries c i = None) /\
       forall e j h rs, nth_error (stream_of i (map trows sched)) (length (stream_of i (map trows sched)) - 1) = Some e ->
         nth_error hs j = Some h -> nth_error os j = Some rs -> (exists r, In r rs /\ cid r = i /\ cdat r <> []) ->
         let d := stack_offline Ls (data_of (stream_of i (map trows sched))) in
         entries c i = Some (mkSingle d (mkMeta [i] [true] [true] [Z.of_nat (length d)] (if h then Some [cch e] else None)))) /\
  (~ agreeing hs os -> stream_loop Ls (fresh Ls) new_collector (map (tensor_of z) sched) = Err ValueError).
Proof. intros V. exact collected_network. Qed.

(** No chunk index is lost if in every batch all streams start or none does, all strides are 1, and the first chunk of a
    stream that goes on fills the kernels. *)
Theorem C89_in_phase : forall (V : Type) (Ls : list (layer V)) sched hs, length hs = length sched -> Forall good_layer Ls -> Forall unit_stride Ls ->
  good_schedule sched -> in_phase sched -> (forall i, survives Ls (stream_of i sched)) -> (forall i, filled Ls (stream_of i sched)) ->
  carried Ls sched hs = hs.
Proof. intros V. exact carried_phase. Qed.

(** None is lost if every stream is a single chunk, whatever the strides. *)
Theorem C89_whole_streams : forall (V : Type) (Ls : list (layer V)) sched hs, length hs = length sched ->
  Forall (Forall (fun r => csos r = true)) sched -> carried Ls sched hs = hs.
Proof. intros V. exact carried_whole. Qed.

Definition dg (l : list Z) : Z := fold_right (fun a s => (a + 10 * s)%Z) 0%Z l.
Definition k3 : conv_cfg Z := mkCfg 3 1 1 1 dg 0%Z 0%Z.
(** "b" starts when "a" goes on, all batches with chunk indices. *)
Definition staggered : list (tens Z) :=
  [ mkTens 3 true [mkChunk "a" true false [1; 2; 3] 0];
    mkTens 3 true [mkChunk "a" false true [4; 5; 6] 1; mkChunk "b" true false [7; 8; 9] 0];
    mkTens 2 true [mkChunk "b" false true [5; 5] 1] ]%Z.

Lemma staggered_good : good_schedule (map trows staggered).
Proof.
  split.
  - repeat constructor; simpl; intuition discriminate.
  - intros i. unfold stream_of. cbn [map trows staggered List.concat app filter cid].
    destruct (String.eqb "a" i) eqn:Ea; destruct (String.eqb "b" i) eqn:Eb; vm_compute; auto.
Qed.

(** Chunk indices on all batches are not enough: with one convolution of kernel 3 and two streams that do not start
    together the second output loses them, and the collector, which knows the first chunk of "a" with its index, raises. *)
Theorem C89_staggered_refuted :
  exists (Ls : list (layer Z)) (sched : list (tens Z)) ys sts', Forall good_layer Ls /\ zero_preserving 0%Z Ls 0%Z /\
    good_schedule (map trows sched) /\ Forall tight sched /\ Forall (fun t => th t = true) sched /\
    stack_run Ls (fresh Ls) (map (tensor_of 0%Z) sched) = Ok (ys, sts') /\ map (fun y => chs (bm y)) ys = [Some [0%Z]; None; Some [1%Z]] /\
    stream_loop Ls (fresh Ls) new_collector (map (tensor_of 0%Z) sched) = Err ValueError.
Proof.
  destruct (stack_run [LConv k3] (fresh [LConv k3]) (map (tensor_of 0%Z) staggered)) as [[ys sts]|e] eqn:E.
  2:{ exfalso. vm_compute in E. discriminate. }
  exists [LConv k3], staggered, ys, sts. split; [constructor; [vm_compute; lia|constructor]|]. split; [vm_compute; auto|].
  split; [exact staggered_good|]. split; [repeat constructor|]. split; [repeat constructor|]. split; [exact E|]. split.
  - assert (G : match stack_run [LConv k3] (fresh [LConv k3]) (map (tensor_of 0%Z) staggered) with
                | Ok (ys, _) => map (fun y => chs (bm y)) ys | Err _ => [] end = [Some [0%Z]; None; Some [1%Z]]) by (vm_compute; reflexivity).
    rewrite E in G. exact G.
  - vm_compute. reflexivity.
Qed.

(** The number of waiting columns and the outputs with chunk indices for this schedule; the streams do not agree. *)
Example C89_example :
  map (waiting k3 (firstn 1 (map trows staggered))) (nth 1 (map trows staggered) []) = [2; 0] /\
  carried [LConv k3] (map trows staggered) (map th staggered) = [true; false; true] /\
  out_schedule [LConv k3] (map trows staggered)
  = [[mkChunk "a" true false [210; 321] 0]; [mkChunk "a" false true [432; 543; 654; 65] 1; mkChunk "b" true false [870; 987] 0];
     [mkChunk "b" false true [598; 559; 55] 1]]%Z.
Proof. split; [vm_compute; reflexivity|]. split; vm_compute; reflexivity. Qed.

(** The streams start together: nothing is lost, and the collector has the indices. *)
Definition together : list (tens Z) :=
  [ mkTens 3 true [mkChunk "a" true false [1; 2; 3] 0; mkChunk "b" true false [7; 8; 9] 0];
    mkTens 3 true [mkChunk "b" false true [5; 5] 1; mkChunk "a" false true [4; 5; 6] 1] ]%Z.
Definition two_convs : list (layer Z) := [LConv k3; LMap (Z.max 0); LConv (mkCfg 2 1 1 0 dg 0%Z 0%Z)].

Example C89_example_together :
  Forall good_layer two_convs /\ Forall unit_stride two_convs /\ in_phase (map trows together) /\
  carried two_convs (map trows together) (map th together) = [true; true] /\
  match stream_loop two_convs (fresh two_convs) new_collector (map (tensor_of 0%Z) together) with
  | Ok c => entries c "a" = Some (mkSingle [3420; 4641; 5862; 7083; 1304] (mkMeta ["a"] [true] [true] [5] (Some [1])))%Z
  | Err _ => False
  end.
Proof.
  split; [constructor; [vm_compute; lia|constructor; [exact I|constructor; [vm_compute; lia|constructor]]]|].
  split; [constructor; [reflexivity|constructor; [exact I|constructor; [reflexivity|constructor]]]|].
  split.
  { constructor; [left|constructor; [right|constructor]]; intros r H; repeat (destruct H as [<-|H]; [reflexivity|]); destruct H. }
  split; vm_compute; reflexivity.
Qed.

(* ---- assumptions *)
Print Assumptions C89_indices.
Print Assumptions C89_network_indices.
Print Assumptions C89_collected.
Print Assumptions C89_in_phase.
Print Assumptions C89_whole_streams.
Print Assumptions C89_staggered_refuted.

(** Theorems of record: when stacks of layers (C27) and networks on tensors (C84) succeed. *)

From Coq Require Import String List ZArith Bool Lia.
From Coq Require Import ZifyBool.
From Verif Require Import Py Meta MetaSpec Named NamedSpec Pad Conv ConvSpec Stack StackSpec StackLiveProofs
  ConvTensor ConvTensorSpec ConvTensorProofs ConvNet ConvNetSpec ConvNetProofs ConvNetLiveProofs PropertiesConv PropertiesConvTensor PropertiesConvNet.
Import ListNotations.
Open Scope string_scope.
Open Scope list_scope.
Open Scope nat_scope.

(* ---------- C27 ---------- *)

(** A stack with strides below the kernel width succeeds exactly if behind every convolution every batch holds some column. *)
Theorem C27_succeeds_iff : forall (V : Type) (Ls : list (layer V)) (z z' : V) (sched : list (tens V)),
  Forall overlapping Ls -> zero_preserving z Ls z' -> good_schedule (map trows sched) -> Forall tight sched ->
  (forall i, survives Ls (stream_of i (map trows sched))) ->
  ((exists ys sts', stack_run Ls (fresh Ls) (map (tensor_of z) sched) = Ok (ys, sts')) <-> alive Ls (map trows sched)).
Proof. intros V Ls z z' sched. exact (stack_succeeds z' Ls z sched). Qed.

(** In particular if every chunk is long enough for the stack without its padding; then no start or end chunk vanishes. *)
Theorem C27_long_chunks : forall (V : Type) (Ls : list (layer V)) (z z' : V) (sched : list (tens V)) n w,
  Forall overlapping Ls -> zero_preserving z Ls z' -> good_schedule (map trows sched) -> Forall tight sched ->
  1 <= n -> Forall (fun t => Forall (fun r => n <= length (cdat r)) (trows t)) sched -> unpadded_width Ls n = Some w ->
  (forall i, survives Ls (stream_of i (map trows sched))) /\
  exists ys sts', stack_run Ls (fresh Ls) (map (tensor_of z) sched) = Ok (ys, sts').
Proof. intros V Ls z z' sched n w. exact (stack_long Ls z z' sched n w). Qed.

(** Chunks of four columns are long enough for a kernel of width 2 followed by one of width 3; chunks of two columns are not,
    and the first call fails. *)
Definition quads : list (tens Z) :=
  [ tt [ck "a" true false [1; 2; -3; 4]%Z; ck "b" true true [7; 8; 9; 1; 2]%Z]; tt [ck "a" false true [5; 6; 7; 8]%Z] ].
Definition pairs : list (tens Z) := [ tt [ck "a" true false [1; 2]%Z]; tt [ck "a" false true [3; 4]%Z] ].
Example C27_long_example :
  Forall overlapping net /\ zero_preserving 0%Z net 0%Z /\ good_schedule (map trows quads) /\ Forall tight quads /\
  Forall (fun t => Forall (fun r => 4 <= length (cdat r)) (trows t)) quads /\ unpadded_width net 4 = Some 1 /\
  outputs (stack_run net (fresh net) (map (tensor_of 0%Z) quads))
  = [ ([[210; 3721; 0; 0]; [10670; 2967; 2388; 229]], [2; 4]); ([[5770; 7077; 8304; 9525; 946]], [5]) ]%Z /\
  stack_offline net [1; 2; -3; 4; 5; 6; 7; 8]%Z = [210; 3721; 5770; 7077; 8304; 9525; 946]%Z /\
  unpadded_width net 2 = None /\ ~ alive net2 (map trows pairs) /\
  stack_run net2 (fresh net2) (map (tensor_of 0%Z) pairs) = Err RuntimeError.
Proof.
  split; [repeat constructor; vm_compute; lia|]. split; [vm_compute; auto|]. split.
  { split.
    - repeat constructor; simpl; try discriminate; intuition discriminate.
    - intros i. unfold quads, stream_of, ck, tt. cbn [map trows List.concat app filter cid].
      destruct (String.eqb_spec "a" i), (String.eqb_spec "b" i); subst; try congruence; simpl; auto 20. }
  split; [repeat constructor|]. split; [repeat constructor|]. split; [vm_compute; reflexivity|]. split; [vm_compute; reflexivity|].
  split; [vm_compute; reflexivity|]. split; [vm_compute; reflexivity|]. split; [|vm_compute; reflexivity].
  intros H. unfold net2 in H. destruct H as [H _]. apply Forall_inv in H. destruct H as (r & [<-|[]] & K). apply K. reflexivity.
Qed.

(* ---------- C84 ---------- *)

Theorem C84_succeeds_iff : forall (V : Type) (A : arith V) (f : dname) c z Ls qs c' z' (sched : list (tens (list V))) (xs : list (@stensor V)),
  mask_clears A -> channel_name f -> network A c z Ls qs c' z' -> net_overlapping Ls qs ->
  good_schedule (map trows sched) -> Forall tight sched ->
  (forall i, survives (column_layers A c Ls qs) (stream_of i (map trows sched))) ->
  Forall2 (holds c f) xs (map (tensor_of z) sched) ->
  ((exists ys sts', net_run A Ls (net_fresh Ls) xs = Ok (ys, sts')) <-> alive (column_layers A c Ls qs) (map trows sched)).
Proof. intros V A f c z Ls qs c' z' sched xs. exact (net_succeeds A f c z Ls qs c' z' sched xs). Qed.

(** If every chunk has [n] columns or more and the modules without padding accept [n] columns, then streaming succeeds and gives,
    for every complete stream, the network applied to the whole sequence. *)
Theorem C84_long_chunks : forall (V : Type) (A : arith V) (f : dname) c z Ls qs c' z' (sched : list (tens (list V)))
    (xs : list (@stensor V)) n w,
  mask_clears A -> channel_name f -> network A c z Ls qs c' z' -> net_overlapping Ls qs ->
  good_schedule (map trows sched) -> Forall tight sched ->
  1 <= n -> Forall (fun t => Forall (fun r => n <= length (cdat r)) (trows t)) sched -> net_width Ls (map unpadded qs) n = Some w ->
  Forall2 (holds c f) xs (map (tensor_of z) sched) ->
  exists ys sts' outs, net_run A Ls (net_fresh Ls) xs = Ok (ys, sts') /\ Forall2 (holds c' f) ys (map (tensor_of z') outs) /\
    Forall2 (Forall2 follows) (map trows sched) (map trows outs) /\
    forall i l1 l l2, stream_of i (map trows sched) = l1 ++ l ++ l2 -> complete l ->
      exists o1 o o2, stream_of i (map trows outs) = o1 ++ o ++ o2 /\ length o1 = length l1 /\ length o = length l /\
        network_value A Ls qs (data_of l) (data_of o).
Proof. intros V A f c z Ls qs c' z' sched xs n w. exact (net_long A f c z Ls qs c' z' sched xs n w). Qed.

Definition long_streams : list (tens (list Z)) :=
  [ ct [cc "a" true false [[1; 2]; [3; 4]; [5; 6]; [7; 8]; [1; 1]]%Z];
    ct [cc "b" true true [[7; 1]; [8; 1]; [9; 1]; [2; 2]; [3; 0]; [1; 0]]%Z; cc "a" false true [[9; 9]; [1; 0]; [0; 1]; [2; 2]; [3; 3]]%Z] ].
Definition long_inputs : list (@stensor Z) := map (fun t => from_batch 2 (tensor_of [0; 0]%Z t)) long_streams.
Example C84_long_example :
  net_overlapping small_net small_sizes /\ good_schedule (map trows long_streams) /\ Forall tight long_streams /\
  Forall (fun t => Forall (fun r => 5 <= length (cdat r)) (trows t)) long_streams /\
  net_width small_net (map unpadded small_sizes) 5 = Some 1 /\ net_width small_net (map unpadded small_sizes) 4 = None /\
  Forall2 (holds 2 (Some "F")) long_inputs (map (tensor_of [0; 0]%Z) long_streams) /\
  match net_run ints small_net (net_fresh small_net) long_inputs with
  | Ok (ys, _) => map (fun y => (shp (tn y), lens (smeta y))) ys = [([1; 3; 3], [3]); ([2; 3; 7], [6; 7])]%Z
  | Err _ => False
  end.
Proof.
  split; [cbn; lia|]. split.
  { split.
    - repeat constructor; simpl; try discriminate; intuition discriminate.
    - intros i. unfold long_streams, stream_of, cc, ct. cbn [map trows List.concat app filter cid].
      destruct (String.eqb_spec "a" i), (String.eqb_spec "b" i); subst; try congruence; simpl; auto 20. }
  split; [repeat constructor|]. split; [repeat constructor|]. split; [vm_compute; reflexivity|]. split; [vm_compute; reflexivity|]. split.
  - cbn [map long_streams long_inputs]. constructor; [|constructor; [|constructor]]; apply from_batch_holds; repeat constructor.
  - vm_compute. reflexivity.
Qed.

(* ---- assumptions *)
Print Assumptions C27_succeeds_iff.
Print Assumptions C27_long_chunks.
Print Assumptions C84_succeeds_iff.
Print Assumptions C84_long_chunks.

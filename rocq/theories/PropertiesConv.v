(** Theorems of record: streaming convolutions (C26 - C35).

    [tensor_of z t] is the batch tensor described by [t] (rows right-padded with the zero column z), [stream_of i s] the
    chunks of stream [i] in schedule [s], [offline c] the whole-sequence convolution; see ConvSpec.v, StackSpec.v. *)

From Coq Require Import String List ZArith Bool Lia.
From Coq Require Import ZifyBool.
From Verif Require Import Py Meta MetaSpec MetaProofs Pad Conv ConvSpec ConvProofs ConvRunProofs ConvStreamProofs ConvMoreProofs Stack StackSpec StackProofs.
Import ListNotations.
Open Scope string_scope.
Open Scope list_scope.
Open Scope nat_scope.

(* ---------- material for the examples ---------- *)

(** Kernel width 3, padding 1, stride 1; columns are integers, the kernel computes 1*a + 10*b + 100*c. *)
Definition digits (l : list Z) : Z := fold_right (fun a s => (a + 10 * s)%Z) 0%Z l.
Definition conv3 : conv_cfg Z := mkCfg 3 1 1 1 digits 0%Z 0%Z.
Definition ck (i : string) (s e : bool) (d : list Z) : chunk Z := mkChunk i s e d 0%Z.
Definition tt (rs : list (chunk Z)) : tens Z := mkTens (longest rs) false rs.

(** Streams a and b start in different batches, a with chunks of 2, 1 and 2 columns, b with 3 and 2. *)
Definition demo : list (tens Z) :=
  [ tt [ck "a" true false [1; 2]%Z];
    tt [ck "b" true false [7; 8; 9]%Z; ck "a" false false [3]%Z];
    tt [ck "a" false true [4; 5]%Z; ck "b" false true [6; 5]%Z] ].

Lemma demo_good : good_schedule (map trows demo).
Proof.
  split.
  - repeat constructor; simpl; try discriminate; intuition discriminate.
  - intros i. unfold demo, stream_of, ck, tt. cbn [map trows List.concat app filter cid].
    destruct (String.eqb_spec "a" i), (String.eqb_spec "b" i); subst; try congruence; simpl; auto 20.
Qed.
Lemma demo_tight : Forall tight demo. Proof. repeat constructor. Qed.
Lemma demo_fits : Forall (fits conv3) demo.
Proof.
  apply Forall_forall. intros t Ht. apply tight_fits.
  - destruct Ht as [<-|[<-|[<-|[]]]]; discriminate.
  - pose proof demo_tight as H. rewrite Forall_forall in H. auto.
Qed.
Lemma conv3_valid : valid_cfg conv3 /\ strd conv3 < kspan conv3. Proof. vm_compute. repeat split; lia. Qed.

Definition outputs {A B} (r : res (list (batch A) * B)) : list (list (list A) * list Z) :=
  match r with Ok (ys, _) => map (fun y => (bd y, lens (bm y))) ys | Err _ => [] end.

(* ---------- C26 ---------- *)

Theorem C26_streaming_equals_offline : forall (V : Type) (c : conv_cfg V) (sched : list (tens V)) ys st',
  valid_cfg c -> strd c <= kspan c ->
  good_schedule (map trows sched) -> Forall (fits c) sched ->
  conv_run c no_buffers (map (tensor_of (zin c)) sched) = Ok (ys, st') ->
  exists outs, ys = map (tensor_of (zout c)) outs /\
    Forall2 (Forall2 follows) (map trows sched) (map trows outs) /\
    forall i l1 l l2, stream_of i (map trows sched) = (l1 ++ l ++ l2)%list -> complete l ->
      exists o1 o o2, stream_of i (map trows outs) = (o1 ++ o ++ o2)%list /\ length o1 = length l1 /\ length o = length l /\
        data_of o = offline c (data_of l).
Proof. intros V c. exact (stream_offline c). Qed.

(** The right-hand side is what the unpatched module computes. *)
Theorem C26_offline_is_the_plain_module : forall (V : Type) (c : conv_cfg V) (w : nat) (rows : list (list V)),
  valid_cfg c -> Forall (fun r => length r = w) rows ->
  torch_conv1d c (padn c) w rows =
    if w + 2 * padn c <? kspan c then Err RuntimeError else Ok (nwin c (w + 2 * padn c), map (offline c) rows).
Proof. intros V c. exact (torch_offline c). Qed.

Example C26_example :
  outputs (conv_run conv3 no_buffers (map (tensor_of 0%Z) demo))
  = [ ([[210]], [1]); ([[870; 987]; [321; 0]], [2; 1]); ([[432; 543; 54]; [698; 569; 56]], [3; 3]) ]%Z
  /\ offline conv3 [1; 2; 3; 4; 5]%Z = [210; 321; 432; 543; 54]%Z
  /\ offline conv3 [7; 8; 9; 6; 5]%Z = [870; 987; 698; 569; 56]%Z
  /\ complete (stream_of "a" (map trows demo)) /\ complete (stream_of "b" (map trows demo)).
Proof.
  split; [vm_compute; reflexivity|]. split; [vm_compute; reflexivity|]. split; [vm_compute; reflexivity|].
  split; (split; [discriminate|]); intros [|[|[|k]]] r H; vm_compute in H; inversion H; subst; auto; destruct k; discriminate.
Qed.

(** The restriction to stride <= kernel width is needed: kernel width 1, stride 2. *)
Definition skip2 : conv_cfg Z := mkCfg 1 1 2 0 digits 0%Z 0%Z.
Theorem C26_wide_stride_refuted : exists (sched : list (tens Z)) ys st' outs,
  valid_cfg skip2 /\ good_schedule (map trows sched) /\ Forall tight sched /\
  conv_run skip2 no_buffers (map (tensor_of 0%Z) sched) = Ok (ys, st') /\ ys = map (tensor_of 0%Z) outs /\
  complete (stream_of "a" (map trows sched)) /\
  data_of (stream_of "a" (map trows outs)) <> offline skip2 (data_of (stream_of "a" (map trows sched))).
Proof.
  exists [tt [ck "a" true false [1; 2; 3]%Z]; tt [ck "a" false true [4; 5]%Z]].
  eexists. eexists. exists [tt [ck "a" true false [1; 3]%Z]; tt [ck "a" false true [4]%Z]].
  split; [repeat split; vm_compute; lia|]. split.
  { split; [repeat constructor; simpl; try discriminate; tauto|]. intros i. unfold stream_of, ck, tt. cbn [map trows List.concat app filter cid].
    destruct (String.eqb_spec "a" i); simpl; auto. }
  split; [repeat constructor|]. split; [vm_compute; reflexivity|]. split; [reflexivity|]. split.
  - split; [discriminate|]. intros [|[|k]] r H; vm_compute in H; inversion H; subst; auto. destruct k; discriminate.
  - vm_compute. discriminate.
Qed.

(* ---------- C27 ---------- *)

Theorem C27_stack_equals_offline : forall (V : Type) (Ls : list (layer V)) (z z' : V) (sched : list (tens V)) ys sts',
  Forall good_layer Ls -> zero_preserving z Ls z' ->
  good_schedule (map trows sched) -> Forall tight sched ->
  (forall i, survives Ls (stream_of i (map trows sched))) ->
  stack_run Ls (fresh Ls) (map (tensor_of z) sched) = Ok (ys, sts') ->
  exists outs, ys = map (tensor_of z') outs /\
    Forall2 (Forall2 follows) (map trows sched) (map trows outs) /\
    forall i l1 l l2, stream_of i (map trows sched) = (l1 ++ l ++ l2)%list -> complete l ->
      exists o1 o o2, stream_of i (map trows outs) = (o1 ++ o ++ o2)%list /\ length o1 = length l1 /\ length o = length l /\
        data_of o = stack_offline Ls (data_of l).
Proof. intros V Ls. exact (stack_offline_equiv Ls). Qed.

(** Two convolutions with a rectifier in between. *)
Definition net : list (layer Z) := [LConv (mkCfg 2 1 1 0 digits 0%Z 0%Z); LMap (Z.max 0); LConv conv3].
Definition sched2 : list (tens Z) :=
  [ tt [ck "a" true false [1; 2; -3]%Z];
    tt [ck "b" true false [7; 8]%Z; ck "a" false true [4; 5]%Z];
    tt [ck "b" false true [9]%Z] ].
Definition sched2_survives : forall i, survives net (stream_of i (map trows sched2)).
Proof.
  intros i. unfold sched2, stream_of, ck, tt. cbn [map trows List.concat app filter cid].
  destruct (String.eqb_spec "a" i), (String.eqb_spec "b" i); subst; try congruence; vm_compute;
    repeat constructor; try discriminate; auto.
Qed.
Example C27_example :
  Forall good_layer net /\ zero_preserving 0%Z net 0%Z /\ (forall i, survives net (stream_of i (map trows sched2))) /\
  outputs (stack_run net (fresh net) (map (tensor_of 0%Z) sched2))
  = [ ([[210]], [1]); ([[0; 0; 0]; [3721; 5770; 577]], [0; 3]); ([[10670; 1067]], [2]) ]%Z /\
  stack_offline net [1; 2; -3; 4; 5]%Z = [210; 3721; 5770; 577]%Z /\ stack_offline net [7; 8; 9]%Z = [10670; 1067]%Z.
Proof.
  split; [repeat constructor; vm_compute; lia|]. split; [vm_compute; auto|]. split; [exact sched2_survives|].
  repeat split; vm_compute; reflexivity.
Qed.

(** The condition that start chunks do not vanish between layers is needed: here the first chunk of "b" has no output
    after the first layer, the second layer loses its start flag and omits the left padding. *)
Definition net2 : list (layer Z) := [LConv (mkCfg 3 1 1 0 digits 0%Z 0%Z); LConv conv3].
Definition sched3 : list (tens Z) :=
  [ tt [ck "a" true false [1; 2; 3; 4]%Z];
    tt [ck "b" true false [7]%Z; ck "a" false false [5; 6]%Z];
    tt [ck "a" false true [7; 8]%Z; ck "b" false true [8; 9; 9; 8]%Z] ].
Theorem C27_vanishing_chunk_refuted : exists ys sts' outs,
  Forall good_layer net2 /\ zero_preserving 0%Z net2 0%Z /\ good_schedule (map trows sched3) /\ Forall tight sched3 /\
  stack_run net2 (fresh net2) (map (tensor_of 0%Z) sched3) = Ok (ys, sts') /\ ys = map (tensor_of 0%Z) outs /\
  complete (stream_of "b" (map trows sched3)) /\
  data_of (stream_of "b" (map trows outs)) = [100867; 9988]%Z /\
  stack_offline net2 (data_of (stream_of "b" (map trows sched3))) = [109670; 100867; 9988]%Z.
Proof.
  eexists. eexists.
  exists [ tt [ck "a" true false [46410]%Z];
           tt [ck "b" false false []; ck "a" false false [58941; 71262]%Z];
           tt [ck "a" false true [83583; 95904; 9525]%Z; ck "b" false true [100867; 9988]%Z] ].
  split; [repeat constructor; vm_compute; lia|]. split; [vm_compute; auto|]. split.
  { split; [repeat constructor; simpl; try discriminate; intuition discriminate|].
    intros i. unfold sched3, stream_of, ck, tt. cbn [map trows List.concat app filter cid].
    destruct (String.eqb_spec "a" i), (String.eqb_spec "b" i); subst; try congruence; simpl; auto 20. }
  split; [repeat constructor|]. split; [vm_compute; reflexivity|]. split; [vm_compute; reflexivity|]. split.
  { split; [discriminate|]. intros [|[|k]] r H; vm_compute in H; inversion H; subst; auto. destruct k; discriminate. }
  split; vm_compute; reflexivity.
Qed.

(* ---------- C28 ---------- *)

(** At every moment (after any schedule) the output of a running stream is the convolution of its left padding and what it
    has delivered, however that was cut and batched ... *)
Theorem C28_output_so_far : forall (V : Type) (c : conv_cfg V) (sched : list (tens V)) ys st',
  valid_cfg c -> strd c <= kspan c ->
  good_schedule (map trows sched) -> Forall (fits c) sched ->
  conv_run c no_buffers (map (tensor_of (zin c)) sched) = Ok (ys, st') ->
  exists outs, ys = map (tensor_of (zout c)) outs /\
    Forall2 (Forall2 follows) (map trows sched) (map trows outs) /\
    forall i l1 l, stream_of i (map trows sched) = (l1 ++ l)%list -> running l ->
      exists o1 o, stream_of i (map trows outs) = (o1 ++ o)%list /\ length o1 = length l1 /\ length o = length l /\
        data_of o = conv_seq c (zeros c ++ data_of l).
Proof. intros V c. exact (stream_so_far c). Qed.

(** ... and that is a prefix of the offline output, whatever else the stream will deliver. *)
Theorem C28_prefix_of_offline : forall (V : Type) (c : conv_cfg V) (now later : list V), valid_cfg c -> strd c <= kspan c ->
  exists rest, offline c (now ++ later) = (conv_seq c (zeros c ++ now) ++ rest)%list.
Proof. intros V c. exact (conv_prefix c). Qed.

Example C28_example : running (stream_of "a" (map trows (firstn 2 demo))) /\
  outputs (conv_run conv3 no_buffers (map (tensor_of 0%Z) (firstn 2 demo))) = [ ([[210]], [1]); ([[870; 987]; [321; 0]], [2; 1]) ]%Z /\
  conv_seq conv3 (zeros conv3 ++ [1; 2; 3]%Z) = [210; 321]%Z.
Proof.
  split.
  - split; [discriminate|]. intros [|[|k]] r H; vm_compute in H; inversion H; subst; auto. destruct k; discriminate.
  - split; vm_compute; reflexivity.
Qed.

(* ---------- C29 ---------- *)

Theorem C29_never_fails : forall (V : Type) (c : conv_cfg V) (sched : list (tens V)),
  valid_cfg c -> strd c < kspan c ->
  good_schedule (map trows sched) -> Forall (fits c) sched ->
  (forall k t, nth_error sched k = Some t -> exists r, In r (trows t) /\
     spans c (so_far (pending c None (stream_of (cid r) (map trows (firstn k sched))))) r) ->
  exists outs st', conv_run c no_buffers (map (tensor_of (zin c)) sched) = Ok (map (tensor_of (zout c)) outs, st') /\
    Forall2 (Forall2 follows) (map trows sched) (map trows outs).
Proof.
  intros V c sched Hv Hs Hg Hf H. destruct (run_succeeds c sched Hv Hs Hg Hf H) as (ys & st' & E).
  destruct (stream_offline c sched ys st' Hv ltac:(lia) Hg Hf E) as (outs & -> & HF & _). eauto.
Qed.

(** The last condition is necessary. *)
Theorem C29_condition_necessary : forall (V : Type) (c : conv_cfg V) (sched : list (tens V)) ys st',
  valid_cfg c -> strd c <= kspan c ->
  good_schedule (map trows sched) -> Forall tight sched ->
  conv_run c no_buffers (map (tensor_of (zin c)) sched) = Ok (ys, st') ->
  forall k t, nth_error sched k = Some t -> exists r, In r (trows t) /\
     spans c (so_far (pending c None (stream_of (cid r) (map trows (firstn k sched))))) r.
Proof. intros V c. exact (run_succeeds_only c). Qed.

Example C29_example : forall k t, nth_error demo k = Some t -> exists r, In r (trows t) /\
     spans conv3 (so_far (pending conv3 None (stream_of (cid r) (map trows (firstn k demo))))) r.
Proof.
  intros [|[|[|k]]] t H; cbn in H; try (destruct k; discriminate); inversion H; subst; eexists; (split; [left; reflexivity|vm_compute; lia]).
Qed.

(** With stride = kernel width the call can fail although everything is long enough: nothing is buffered for the running
    stream, and the starting one has no buffer. *)
Definition pool2 : conv_cfg Z := mkCfg 2 1 2 0 digits 0%Z 0%Z.
Theorem C29_stride_equal_width_refuted : exists sched : list (tens Z),
  valid_cfg pool2 /\ strd pool2 = kspan pool2 /\ good_schedule (map trows sched) /\ Forall tight sched /\
  (forall k t, nth_error sched k = Some t -> exists r, In r (trows t) /\
     spans pool2 (so_far (pending pool2 None (stream_of (cid r) (map trows (firstn k sched))))) r) /\
  conv_run pool2 no_buffers (map (tensor_of 0%Z) sched) = Err TypeError.
Proof.
  exists [ tt [ck "a" true false [1; 2]%Z]; tt [ck "b" true false [5; 6]%Z; ck "a" false false [3; 4]%Z] ].
  split; [repeat split; vm_compute; lia|]. split; [reflexivity|]. split.
  { split; [repeat constructor; simpl; try discriminate; intuition discriminate|].
    intros i. unfold stream_of, ck, tt. cbn [map trows List.concat app filter cid].
    destruct (String.eqb_spec "a" i), (String.eqb_spec "b" i); subst; try congruence; simpl; auto 20. }
  split; [repeat constructor|]. split; [|vm_compute; reflexivity].
  intros [|[|k]] t H; cbn in H; try (destruct k; discriminate); inversion H; subst; eexists; (split; [left; reflexivity|vm_compute; lia]).
Qed.

(* ---------- C30 ---------- *)

Theorem C30_bounded_and_released : forall (V : Type) (c : conv_cfg V) (sched : list (tens V)) ys st',
  valid_cfg c -> strd c <= kspan c ->
  good_schedule (map trows sched) -> Forall (fits c) sched ->
  conv_run c no_buffers (map (tensor_of (zin c)) sched) = Ok (ys, st') ->
  forall i b, st' i = Some b ->
    length b <= kspan c - 1 /\ exists l r, stream_of i (map trows sched) = (l ++ [r])%list /\ ceos r = false.
Proof. intros V c. exact (buffers_spec c). Qed.

(** The bound holds for any batch whatsoever (any flags, any ids, any stride, any spare padding). *)
Theorem C30_bounded_any_input : forall (V : Type) (c : conv_cfg V) (st : buffers V) x y st',
  valid_cfg c -> Forall (fun n => 0 <= n)%Z (lens (bm x)) -> (forall i b, st i = Some b -> length b <= kspan c - 1) ->
  conv_call c st x = Ok (y, st') -> forall i b, st' i = Some b -> length b <= kspan c - 1.
Proof. intros V c. exact (call_bounded c). Qed.

(** A stream whose output row carries eos has no buffer afterwards. *)
Theorem C30_released_any_input : forall (V : Type) (c : conv_cfg V) (st : buffers V) x y st',
  conv_call c st x = Ok (y, st') -> forall i, In (i, true) (zip (ids (bm y)) (eos (bm y))) -> st' i = None.
Proof. intros V c. exact (call_releases c). Qed.

Example C30_example : exists ys st', conv_run conv3 no_buffers (map (tensor_of 0%Z) (firstn 2 demo)) = Ok (ys, st') /\
  st' "a" = Some [2; 3]%Z /\ st' "b" = Some [8; 9]%Z /\ st' "c" = None.
Proof. eexists. eexists. split; [vm_compute; reflexivity|]. repeat split; vm_compute; reflexivity. Qed.

(* ---------- C31 ---------- *)

Theorem C31_streams_independent : forall (V : Type) (c : conv_cfg V) (sched1 sched2 : list (tens V)) ys1 ys2 st1 st2 i,
  valid_cfg c -> strd c <= kspan c ->
  good_schedule (map trows sched1) -> good_schedule (map trows sched2) -> Forall (fits c) sched1 -> Forall (fits c) sched2 ->
  conv_run c no_buffers (map (tensor_of (zin c)) sched1) = Ok (ys1, st1) ->
  conv_run c no_buffers (map (tensor_of (zin c)) sched2) = Ok (ys2, st2) ->
  stream_of i (map trows sched1) = stream_of i (map trows sched2) ->
  exists outs1 outs2, ys1 = map (tensor_of (zout c)) outs1 /\ ys2 = map (tensor_of (zout c)) outs2 /\
    stream_of i (map trows outs1) = stream_of i (map trows outs2) /\ st1 i = st2 i.
Proof. intros V c. exact (independent c). Qed.

(** Stream a of [demo] alone. *)
Example C31_example :
  outputs (conv_run conv3 no_buffers (map (tensor_of 0%Z)
     [tt [ck "a" true false [1; 2]%Z]; tt [ck "a" false false [3]%Z]; tt [ck "a" false true [4; 5]%Z]]))
  = [ ([[210]], [1]); ([[321]], [1]); ([[432; 543; 54]], [3]) ]%Z.
Proof. vm_compute. reflexivity. Qed.

(* ---------- C32 ---------- *)

(** Missing from the full property: a start in a batch that also continues other streams (refuted below). *)
Theorem C32_restart_in_starting_batch_partial : forall (V : Type) (c : conv_cfg V) (sched : list (tens V)) ys st',
  valid_cfg c -> strd c <= kspan c ->
  restarting_schedule (map trows sched) -> Forall (fits c) sched ->
  conv_run c no_buffers (map (tensor_of (zin c)) sched) = Ok (ys, st') ->
  exists outs, ys = map (tensor_of (zout c)) outs /\
    Forall2 (Forall2 follows) (map trows sched) (map trows outs) /\
    forall i l1 l l2, stream_of i (map trows sched) = (l1 ++ l ++ l2)%list -> complete l ->
      exists o1 o o2, stream_of i (map trows outs) = (o1 ++ o ++ o2)%list /\ length o1 = length l1 /\ length o = length l /\
        data_of o = offline c (data_of l).
Proof. intros V c. exact (restart_spec c). Qed.

Theorem C32_fresh_start_any_buffers_partial : forall (V : Type) (c : conv_cfg V) (st1 st2 : buffers V) x,
  all_starting (bm x) = true ->
  match conv_call c st1 x, conv_call c st2 x with
  | Ok (y1, _), Ok (y2, _) => y1 = y2
  | Err e1, Err e2 => e1 = e2
  | _, _ => False
  end.
Proof. intros V c. exact (fresh_start c). Qed.

Example C32_example :
  outputs (conv_run conv3 no_buffers (map (tensor_of 0%Z)
     [tt [ck "a" true false [1; 2]%Z]; tt [ck "a" true true [4; 5]%Z]]))
  = [ ([[210]], [1]); ([[540; 54]], [2]) ]%Z /\ offline conv3 [4; 5]%Z = [540; 54]%Z.
Proof. split; vm_compute; reflexivity. Qed.

(** Stream "a" is aborted and starts anew while "b" goes on: the old buffer of "a" is put in front of the new data, so
    the new stream has more output than its whole offline output. *)
Theorem C32_restart_in_mixed_batch_refuted : exists (sched : list (tens Z)) ys st' outs,
  Forall good_batch (map trows sched) /\ Forall tight sched /\
  stream_of "a" (map trows sched) = [ck "a" true false [1; 2]; ck "a" true true [4; 5]]%Z /\
  conv_run conv3 no_buffers (map (tensor_of 0%Z) sched) = Ok (ys, st') /\ ys = map (tensor_of 0%Z) outs /\
  stream_of "a" (map trows outs) = [ck "a" true false [210]; ck "a" true true [210; 421; 542; 54]]%Z /\
  offline conv3 [4; 5]%Z = [540; 54]%Z.
Proof.
  set (sched := [tt [ck "a" true false [1; 2]; ck "b" true false [7; 7]]%Z; tt [ck "a" true true [4; 5]; ck "b" false false [8]]%Z]).
  set (outs := [tt [ck "a" true false [210]; ck "b" true false [770]]%Z; tt [ck "a" true true [210; 421; 542; 54]; ck "b" false false [877]]%Z]).
  assert (E : match conv_run conv3 no_buffers (map (tensor_of 0%Z) sched) with
              | Ok (ys, _) => ys = map (tensor_of 0%Z) outs | Err _ => False end) by (vm_compute; reflexivity).
  destruct (conv_run conv3 no_buffers (map (tensor_of 0%Z) sched)) as [[ys st']|] eqn:R; [|contradiction].
  exists sched, ys, st', outs.
  split; [repeat constructor; simpl; try discriminate; intuition discriminate|].
  split; [repeat constructor|]. split; [vm_compute; reflexivity|]. split; [exact R|]. split; [exact E|].
  split; vm_compute; reflexivity.
Qed.

(* ---------- C33 ---------- *)

(** Missing from the full property: batches in which all streams start and kernels of width 1 (refuted below). *)
Theorem C33_input_kept_partial : forall (V : Type) (c : conv_cfg V) (st : buffers V) x x',
  kspan c > 1 -> valid_cfg c -> all_starting (bm x) = false -> input_after c st x = Ok x' -> x' = x.
Proof. intros V c. exact (input_kept c). Qed.

(** In the other cases the input ends up with the metadata of the output. *)
Theorem C33_input_gets_output_metadata_partial : forall (V : Type) (c : conv_cfg V) (st : buffers V) x x' y st',
  valid_cfg c -> kspan c <= 1 \/ all_starting (bm x) = true ->
  conv_call c st x = Ok (y, st') -> input_after c st x = Ok x' -> bm x' = bm y.
Proof. intros V c. exact (input_shared c). Qed.

Theorem C33_input_altered_refuted : exists (x x' y : batch Z) st',
  x = tensor_of 0%Z (tt [ck "a" true false [1; 2; 3; 4]%Z]) /\
  conv_call conv3 no_buffers x = Ok (y, st') /\ input_after conv3 no_buffers x = Ok x' /\
  lens (bm x) = [4]%Z /\ lens (bm x') = [3]%Z.
Proof. do 4 eexists. split; [reflexivity|]. repeat split; vm_compute; reflexivity. Qed.

(** Even the data can change: kernel width 1 with padding rolls starting rows in place. *)
Theorem C33_data_altered_refuted : exists (c : conv_cfg Z) (x x' : batch Z),
  valid_cfg c /\ input_after c no_buffers x = Ok x' /\ bd x = [[7; 8; 9; 9]; [1; 2; 0; 0]]%Z /\ bd x' = [[7; 8; 9; 9]; [0; 1; 2; 0]]%Z.
Proof.
  exists (mkCfg 1 1 1 1 digits 0%Z 0%Z).
  exists (tensor_of 0%Z (tt [ck "a" false false [7; 8; 9; 9]%Z; ck "b" true false [1; 2]%Z])).
  eexists. split; [repeat split; vm_compute; lia|]. repeat split; vm_compute; reflexivity.
Qed.

Example C33_example : input_after conv3 (fun i => if String.eqb i "a" then Some [1; 2]%Z else None)
    (tensor_of 0%Z (tt [ck "a" false false [3]%Z])) = Ok (tensor_of 0%Z (tt [ck "a" false false [3]%Z])).
Proof. vm_compute. reflexivity. Qed.

(* ---------- C34 ---------- *)

(** Missing from the full property: widths that do not fit (refuted below). *)
Theorem C34_spare_padding_harmless_partial : forall (V : Type) (c : conv_cfg V) (sched1 sched2 : list (tens V)) ys1 ys2 st1 st2,
  valid_cfg c -> strd c <= kspan c ->
  good_schedule (map trows sched1) -> map trows sched1 = map trows sched2 -> Forall (fits c) sched1 -> Forall (fits c) sched2 ->
  conv_run c no_buffers (map (tensor_of (zin c)) sched1) = Ok (ys1, st1) ->
  conv_run c no_buffers (map (tensor_of (zin c)) sched2) = Ok (ys2, st2) ->
  exists outs1 outs2, ys1 = map (tensor_of (zout c)) outs1 /\ ys2 = map (tensor_of (zout c)) outs2 /\
    map trows outs1 = map trows outs2 /\ forall i, st1 i = st2 i.
Proof. intros V c. exact (spare_harmless c). Qed.

(** Any width at least that of the longest row fits if the module has no padding, if some row does not start, or if all
    rows start and end; a tight tensor always fits. *)
Theorem C34_which_widths_fit_partial : forall (V : Type) (c : conv_cfg V) (t : tens V), trows t <> [] -> longest (trows t) <= tw t ->
  tight t \/ padn c = 0 \/ (exists r, In r (trows t) /\ csos r = false) \/ (forall r, In r (trows t) -> ceos r = true) ->
  fits c t.
Proof.
  intros V c t Hne Hw [H|[H|[(r & Hr & H)|H]]].
  - now apply tight_fits.
  - split; auto. lia.
  - split; auto. intros _ Hall. rewrite (Hall r Hr) in H. discriminate.
  - split; auto. intros _ _ (r & Hr & He). rewrite (H r Hr) in He. discriminate.
Qed.

Example C34_example :
  outputs (conv_run conv3 no_buffers (map (tensor_of 0%Z)
     [tt [ck "a" true false [1; 2]%Z]; mkTens 5 false [ck "a" false true [4; 5]%Z]]))
  = [ ([[210]], [1]); ([[421; 542; 54; 0; 0]], [3]) ]%Z /\
  outputs (conv_run conv3 no_buffers (map (tensor_of 0%Z)
     [tt [ck "a" true false [1; 2]%Z]; tt [ck "a" false true [4; 5]%Z]]))
  = [ ([[210]], [1]); ([[421; 542; 54]], [3]) ]%Z.
Proof. split; vm_compute; reflexivity. Qed.

(** One spare column in a batch of starting streams: the left padding is left out and the output is wrong. *)
Theorem C34_spare_padding_refuted : exists r : chunk Z, good_batch [r] /\
  outputs (conv_run conv3 no_buffers [tensor_of 0%Z (mkTens 2 false [r])]) = [([[210]], [1])]%Z /\
  outputs (conv_run conv3 no_buffers [tensor_of 0%Z (mkTens 3 false [r])]) = [([[21]], [1])]%Z.
Proof.
  exists (ck "a" true false [1; 2]%Z). split; [repeat constructor; simpl; try discriminate; tauto|].
  split; vm_compute; reflexivity.
Qed.

(* ---------- C35 ---------- *)

(** Any online call: zero at and beyond the length of the row. *)
Theorem C35_zero_beyond_length : forall (V : Type) (c : conv_cfg V) (st : buffers V) x y st',
  valid_cfg c -> conv_call c st x = Ok (y, st') ->
  forall j row, nth_error (bd y) j = Some row -> length row = bw y /\
     forall n t, nth_error (lens (bm y)) j = Some n -> (n <= Z.of_nat t)%Z -> t < bw y -> nth_error row t = Some (zout c).
Proof. intros V c. exact (call_zero c). Qed.

(** The convolution itself (after the hook has put the buffered frames in front). *)
Theorem C35_output_shape : forall (V : Type) (c : conv_cfg V) x h (rs : list row) y tmp,
  valid_cfg c -> bm x = of_rows h rs -> nonneg rs -> conv1d c x = Ok (y, tmp) ->
  bm y = of_rows h (map (fun r => mkRow (rid r) (rsos r) (reos r)
      (Z.of_nat (nwin c (Z.to_nat (rlen r) + (if rsos r then padn c else 0) + (if reos r then padn c else 0)))) (rch r)) rs) /\
  (forall j row, nth_error (bd y) j = Some row -> length row = bw y /\
     forall n t, nth_error (lens (bm y)) j = Some n -> (n <= Z.of_nat t)%Z -> t < bw y -> nth_error row t = Some (zout c)).
Proof. intros V c. exact (conv1d_shape c). Qed.

(** nwin counts the kernel positions that fit. *)
Theorem C35_nwin_counts_positions : forall (V : Type) (c : conv_cfg V) n i, valid_cfg c ->
  (i < nwin c n <-> i * strd c + kspan c <= n).
Proof. intros V c. exact (nwin_lt c). Qed.

(** Ids, flags and chunk indices through the hooks: every call of a good schedule keeps them. *)
Theorem C35_ids_and_flags_kept : forall (V : Type) (c : conv_cfg V) (sched : list (tens V)) ys st',
  valid_cfg c -> strd c <= kspan c ->
  good_schedule (map trows sched) -> Forall (fits c) sched ->
  conv_run c no_buffers (map (tensor_of (zin c)) sched) = Ok (ys, st') ->
  exists outs, ys = map (tensor_of (zout c)) outs /\ Forall2 (Forall2 follows) (map trows sched) (map trows outs).
Proof.
  intros V c sched ys st' Hv Hs Hg Hf H. destruct (stream_offline c sched ys st' Hv Hs Hg Hf H) as (outs & E & HF & _). eauto.
Qed.

Example C35_example : exists y tmp,
  conv1d conv3 (tensor_of 0%Z (tt [ck "a" true true [1; 2; 3; 4]; ck "b" true false [1]]%Z)) = Ok (y, tmp) /\
  bd y = [[210; 321; 432; 43]; [0; 0; 0; 0]]%Z /\ lens (bm y) = [4; 0]%Z.
Proof. do 2 eexists. split; [vm_compute; reflexivity|]. split; reflexivity. Qed.

(** An empty chunk that ends its stream loses its end flag (and its stream keeps its buffer) if it is batched with a
    stream that has another amount of data buffered. *)
Theorem C35_empty_chunk_flag_refuted : exists (st : buffers Z) y st',
  conv_call conv3 st (tensor_of 0%Z (tt [ck "a" false true []; ck "b" false false [3; 4; 5]]%Z)) = Ok (y, st') /\
  eos (bm y) = [false; false] /\ st' "a" = Some [2]%Z.
Proof.
  exists (fun i => if String.eqb i "a" then Some [2]%Z else if String.eqb i "b" then Some [1; 2]%Z else None).
  do 2 eexists. split; [vm_compute; reflexivity|]. split; vm_compute; reflexivity.
Qed.

(* ---- assumptions *)
Print Assumptions C26_streaming_equals_offline.
Print Assumptions C26_offline_is_the_plain_module.
Print Assumptions C26_wide_stride_refuted.
Print Assumptions C27_stack_equals_offline.
Print Assumptions C27_vanishing_chunk_refuted.
Print Assumptions C28_output_so_far.
Print Assumptions C28_prefix_of_offline.
Print Assumptions C29_never_fails.
Print Assumptions C29_condition_necessary.
Print Assumptions C29_stride_equal_width_refuted.
Print Assumptions C30_bounded_and_released.
Print Assumptions C30_bounded_any_input.
Print Assumptions C30_released_any_input.
Print Assumptions C31_streams_independent.
Print Assumptions C32_restart_in_starting_batch_partial.
Print Assumptions C32_fresh_start_any_buffers_partial.
Print Assumptions C32_restart_in_mixed_batch_refuted.
Print Assumptions C33_input_kept_partial.
Print Assumptions C33_input_gets_output_metadata_partial.
Print Assumptions C33_input_altered_refuted.
Print Assumptions C33_data_altered_refuted.
Print Assumptions C34_spare_padding_harmless_partial.
Print Assumptions C34_which_widths_fit_partial.
Print Assumptions C34_spare_padding_refuted.
Print Assumptions C35_zero_beyond_length.
Print Assumptions C35_output_shape.
Print Assumptions C35_nwin_counts_positions.
Print Assumptions C35_ids_and_flags_kept.
Print Assumptions C35_empty_chunk_flag_refuted.

(** Theorems of record: networks of convolutions and layers on time steps, on tensors (C84).

    [network A c z Ls qs c' z']: the network [Ls] takes [c] channels and gives [c'], [qs] are the sizes of its modules, and
    padding columns [z] become [z']. [network_value] is the network applied to a whole sequence; see ConvNetSpec.v. *)

From Coq Require Import String List ZArith Bool Lia.
From Coq Require Import ZifyBool.
From Verif Require Import Py Meta MetaSpec Named NamedSpec Pad Conv ConvSpec Stack StackSpec ConvTensor ConvTensorSpec ConvTensorProofs ConvNet ConvNetSpec ConvNetProofs PropertiesConvTensor.
Import ListNotations.
Open Scope string_scope.
Open Scope list_scope.
Open Scope nat_scope.

(* ---------- material for the examples ---------- *)

Definition relu (l : list Z) : list Z := map (Z.max 0) l.
(** Stands for log_softmax along the channels: subtracts the largest. *)
Definition below_max (l : list Z) : list Z := map (fun v => (v - fold_right Z.max 0%Z l)%Z) l.

(** nn.Conv1d(4, 3, kernel_size=3, padding=1). *)
Definition second : conv_args Z :=
  mkArgs (mkTn [3; 4; 3]%Z (fun ix => (nth 0 ix 0 - nth 1 ix 0 + nth 2 ix 0)%Z)) None (ATuple [1%Z]) (PNum (ATuple [1%Z])) (ATuple [1%Z]) 1%Z.
Definition small_net : list (net_layer Z) := [NConv grouped; NStep 4 relu; NConv second; NStep 3 below_max].
Definition q0 : sizes := mkSizes 0 0 0 0 0.
Definition small_sizes : list sizes := [mkSizes 1 2 1 2 1; q0; mkSizes 4 3 1 1 1; q0].

Lemma small_network : network ints 2 [0; 0]%Z small_net small_sizes 3 (below_max [0; 0; 0]%Z).
Proof.
  apply (N_conv ints 2 4); [exact grouped_ok|cbn; lia|].
  apply N_step; [intros l <-; unfold relu; apply map_length|].
  apply (N_conv ints 4 3); [|cbn; lia|].
  - constructor; try reflexivity; try (cbn; lia). + left. reflexivity. + exists 3%Z. cbn. lia.
  - apply N_step; [intros l <-; unfold below_max; apply map_length|]. apply N_nil.
Qed.

Definition net_streams : list (tens (list Z)) :=
  [ ct [cc "a" true false [[1; 2]; [3; 4]; [5; 6]; [7; 8]]%Z];
    ct [cc "b" true false [[7; 1]; [8; 1]; [9; 1]]%Z; cc "a" false false [[9; 9]]%Z];
    ct [cc "a" false true [[1; 0]; [2; 3]]%Z; cc "b" false true [[6; 0]; [5; 0]; [4; 0]]%Z] ].
Definition net_inputs : list (@stensor Z) := map (fun t => from_batch 2 (tensor_of [0; 0]%Z t)) net_streams.

(* ---------- C84 ---------- *)

(** Streaming the network gives, for every complete stream, the network applied to the whole sequence. *)
Theorem C84_streaming : forall (V : Type) (A : arith V) (f : dname) c z Ls qs c' z' (sched : list (tens (list V)))
    (xs ys : list (@stensor V)) sts',
  mask_clears A -> channel_name f -> network A c z Ls qs c' z' ->
  good_schedule (map trows sched) -> Forall tight sched ->
  (forall i, survives (column_layers A c Ls qs) (stream_of i (map trows sched))) ->
  Forall2 (holds c f) xs (map (tensor_of z) sched) ->
  net_run A Ls (net_fresh Ls) xs = Ok (ys, sts') ->
  exists outs, Forall2 (holds c' f) ys (map (tensor_of z') outs) /\
    Forall2 (Forall2 follows) (map trows sched) (map trows outs) /\
    forall i l1 l l2, stream_of i (map trows sched) = l1 ++ l ++ l2 -> complete l ->
      exists o1 o o2, stream_of i (map trows outs) = o1 ++ o ++ o2 /\ length o1 = length l1 /\ length o = length l /\
        network_value A Ls qs (data_of l) (data_of o).
Proof. intros V A f c z Ls qs c' z' sched xs ys sts'. exact (net_stream A f c z Ls qs c' z' sched xs ys sts'). Qed.

(** The plain network: RuntimeError if a convolution finds less than its kernel span, otherwise the network of every row. *)
Theorem C84_plain_network : forall (V : Type) (A : arith V) c z Ls qs c' z' w (t : @tensor V) rows,
  network A c z Ls qs c' z' -> holds_data c w t rows ->
  match net_width Ls qs w with
  | None => net_plain A Ls t = Err RuntimeError
  | Some w' => exists t' outs, net_plain A Ls t = Ok t' /\ holds_data c' w' t' outs /\ Forall2 (network_value A Ls qs) rows outs
  end.
Proof. intros V A c z Ls qs c' z' w t rows HN. exact (net_plain_ok A c z Ls qs c' z' HN w t rows). Qed.

(** Both together: if the plain network succeeds on the whole sequence of a stream, its output is the concatenation of the
    stream's outputs. *)
Theorem C84_equals_plain_network : forall (V : Type) (A : arith V) (f : dname) c z Ls qs c' z' (sched : list (tens (list V)))
    (xs ys : list (@stensor V)) sts',
  mask_clears A -> channel_name f -> network A c z Ls qs c' z' ->
  good_schedule (map trows sched) -> Forall tight sched ->
  (forall i, survives (column_layers A c Ls qs) (stream_of i (map trows sched))) ->
  Forall2 (holds c f) xs (map (tensor_of z) sched) ->
  net_run A Ls (net_fresh Ls) xs = Ok (ys, sts') ->
  exists outs, Forall2 (holds c' f) ys (map (tensor_of z') outs) /\
    Forall2 (Forall2 follows) (map trows sched) (map trows outs) /\
    forall i l1 l l2 t t', stream_of i (map trows sched) = l1 ++ l ++ l2 -> complete l ->
      holds_data c (length (data_of l)) t [data_of l] -> net_plain A Ls t = Ok t' ->
      exists o1 o o2, stream_of i (map trows outs) = o1 ++ o ++ o2 /\ length o1 = length l1 /\ length o = length l /\
        holds_data c' (length (data_of o)) t' [data_of o].
Proof. intros V A f c z Ls qs c' z' sched xs ys sts'. exact (net_same_as_plain A f c z Ls qs c' z' sched xs ys sts'). Qed.

(** One call of the network on tensors and on columns (the model of C27): same results, same errors. *)
Theorem C84_call : forall (V : Type) (A : arith V) (f : dname) c z Ls qs c' z' sts sts' (x : @stensor V) b,
  mask_clears A -> channel_name f -> network A c z Ls qs c' z' -> net_buffers c Ls sts sts' -> holds c f x b -> described b ->
  match net_call A Ls sts x, stack_call (column_layers A c Ls qs) sts' b with
  | Ok (y, s1), Ok (b1, s1') => holds c' f y b1 /\ net_buffers c Ls s1 s1'
  | Err e, Err e' => e = e'
  | _, _ => False
  end.
Proof.
  intros V A f c z Ls qs c' z' sts sts' x b HA Hf HN HB HX HD. pose proof (net_call_ok A f HA Hf c z Ls qs c' z' HN sts sts' x b HB HX HD) as H.
  destruct (net_call A Ls sts x) as [(y, s1)|e], (stack_call _ sts' b) as [(b1, s1')|e']; exact H.
Qed.

(** Two streams through grouped convolution, relu, convolution and a function of the channels; the outputs of stream a against
    the plain network. *)
Example C84_example :
  match net_run ints small_net (net_fresh small_net) net_inputs,
        net_plain ints small_net (from_columns 2 7 [[[1; 2]; [3; 4]; [5; 6]; [7; 8]; [9; 9]; [1; 0]; [2; 3]]%Z]) with
  | Ok ([y1; y2; y3], _), Ok t =>
      map (fun y => (shp (tn y), lens (smeta y))) [y1; y2; y3] = [([1; 3; 2], [2]); ([2; 3; 1], [1; 1]); ([2; 3; 5], [4; 5])]%Z /\
      shp t = [1; 3; 7]%Z /\
      map (fun j => map (fun p => at_ t [0; j; p]%Z) [0; 1; 2; 3; 4; 5; 6]%Z) [0; 1; 2]%Z =
      map (fun j => [element y1 0 j 0; element y1 0 j 1; element y2 1 j 0; element y3 0 j 0; element y3 0 j 1; element y3 0 j 2; element y3 0 j 3]) [0; 1; 2]%Z /\
      map (fun j => at_ t [0; j; 2]%Z) [0; 1; 2]%Z <> [0; 0; 0]%Z
  | _, _ => False
  end.
Proof. vm_compute. split; [reflexivity|]. split; [reflexivity|]. split; [reflexivity|discriminate]. Qed.

(** The hypotheses of the theorems hold in this case. *)
Example C84_example_hypotheses :
  network ints 2 [0; 0]%Z small_net small_sizes 3 (below_max [0; 0; 0]%Z) /\ good_schedule (map trows net_streams) /\ Forall tight net_streams /\
  (forall i, survives (column_layers ints 2 small_net small_sizes) (stream_of i (map trows net_streams))) /\
  Forall2 (holds 2 (Some "F")) net_inputs (map (tensor_of [0; 0]%Z) net_streams).
Proof.
  split; [exact small_network|]. split; [|split; [|split]].
  - split.
    + repeat constructor; simpl; try discriminate; intuition discriminate.
    + intros i. unfold net_streams, stream_of, cc, ct. cbn [map trows List.concat app filter cid].
      destruct (String.eqb_spec "a" i), (String.eqb_spec "b" i); subst; try congruence; simpl; auto 20.
  - repeat constructor.
  - intros i. unfold net_streams, stream_of, cc, ct. cbn [map trows List.concat app filter cid].
    destruct (String.eqb_spec "a" i), (String.eqb_spec "b" i); subst; try congruence; vm_compute;
      repeat (split; [repeat (constructor; [intros _; discriminate|]) ; try constructor|]); auto.
  - cbn [map net_streams net_inputs]. constructor; [|constructor; [|constructor; [|constructor]]]; apply from_batch_holds; repeat constructor.
Qed.

(* ---------- padding that is no longer zero ---------- *)

(** A layer that maps zero to something else (sigmoid, exp, a bias) in front of a convolution with padding: the values after the
    end of a shorter row are read as if they were data. Whole sequences, rows of 3 and 1 columns: the second row differs from
    the plain network on its own. *)
Definition plus_one (l : list Z) : list Z := map (Z.add 1) l.
Definition sum3 : conv_args Z := mkArgs (mkTn [1; 1; 3]%Z (fun _ => 1%Z)) None (ATuple [1%Z]) (PNum (ATuple [1%Z])) (ATuple [1%Z]) 1%Z.
Definition shifted_net : list (net_layer Z) := [NStep 1 plus_one; NConv sum3].
Definition whole_batch : list (tens (list Z)) := [ct [cc "a" true true [[1]; [2]; [3]]%Z; cc "b" true true [[5]]%Z]].
Definition whole_inputs : list (@stensor Z) := map (fun t => from_batch 1 (tensor_of [0%Z] t)) whole_batch.

Theorem C84_nonzero_padding_refuted :
  Forall tight whole_batch /\ Forall2 (holds 1 (Some "F")) whole_inputs (map (tensor_of [0%Z]) whole_batch) /\
  module_ok sum3 1 1 1 3 1 1 1 /\
  match net_run ints shifted_net (net_fresh shifted_net) whole_inputs, net_plain ints shifted_net (from_columns 1 1 [[[5%Z]]]) with
  | Ok ([y], _), Ok t => lens (smeta y) = [3; 1]%Z /\ element y 1 0 0 = 7%Z /\ shp t = [1; 1; 1]%Z /\ at_ t [0; 0; 0]%Z = 6%Z
  | _, _ => False
  end.
Proof.
  split; [repeat constructor|]. split; [cbn [map whole_batch whole_inputs]; constructor; [|constructor]; apply from_batch_holds; repeat constructor|].
  split.
  - constructor; try reflexivity; try (cbn; lia). + left. reflexivity. + exists 1%Z. cbn. lia.
  - vm_compute. auto.
Qed.

(* ---- assumptions *)
Print Assumptions C84_streaming.
Print Assumptions C84_plain_network.
Print Assumptions C84_equals_plain_network.
Print Assumptions C84_call.
Print Assumptions C84_nonzero_padding_refuted.

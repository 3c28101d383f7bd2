(** Theorems of record: streaming convolutions on tensors with weights (C83).

    [holds c f x b]: the StreamTensor [x] with dimensions (B, f, L) is the batch [b] of columns of [c] values;
    [convolution_of] is the convolution of a whole sequence, written out with weights and bias; see ConvTensorSpec.v. The
    vocabulary of schedules is that of C26 (ConvSpec.v). *)

From Coq Require Import String List ZArith Bool Lia.
From Coq Require Import ZifyBool.
From Verif Require Import Py Meta MetaSpec Named NamedSpec Pad Conv ConvSpec ConvProofs ConvRunProofs ConvStreamProofs ConvMoreProofs ConvTensor ConvTensorSpec ConvTensorProofs ConvTensorHookProofs ConvTensorRunProofs.
Import ListNotations.
Open Scope string_scope.
Open Scope list_scope.
Open Scope nat_scope.

(* ---------- material for the examples ---------- *)

(** Integers. *)
Definition ints : arith Z :=
  mkArith 0%Z (fun v b => if b then v else 0%Z)
          (fun b l => ((match b with Some v => v | None => 0 end) + fold_right (fun q s => (fst q * snd q + s)%Z) 0%Z l)%Z).

(** A tensor of sizes (rows, c, w) given by its columns, and a StreamTensor. *)
Definition from_columns (c w : nat) (rows : list (list (list Z))) : @tensor Z :=
  mkTn [Z.of_nat (length rows); Z.of_nat c; Z.of_nat w]
       (fun ix => match ix with [i; j; p] => nth (Z.to_nat j) (nth (Z.to_nat p) (nth (Z.to_nat i) rows []) []) 0%Z | _ => 0%Z end).
Definition from_batch (c : nat) (b : batch (list Z)) : @stensor Z :=
  mkSt (from_columns c (bw b) (bd b)) [Some "B"; Some "F"; Some "L"] (bm b).

Lemma from_batch_holds c b : sized c (bw b) (bd b) -> holds c (Some "F") (from_batch c b) b.
Proof.
  intros H. constructor; [|reflexivity|reflexivity]. split; [reflexivity|]. split; [exact H|].
  intros i row p col j v Ei Ep Ej. cbn. rewrite !Nat2Z.id. rewrite (nth_error_nth _ _ _ Ei), (nth_error_nth _ _ _ Ep). now apply nth_error_nth.
Qed.

(** nn.Conv1d(2, 4, kernel_size=2, dilation=2, padding=1, groups=2). *)
Definition grouped : conv_args Z :=
  mkArgs (mkTn [4; 1; 2]%Z (fun ix => (1 + 2 * nth 0 ix 0 + nth 2 ix 0)%Z)) (Some (mkTn [4%Z] (fun ix => (100 * nth 0 ix 0)%Z)))
         (ATuple [1%Z]) (PNum (ATuple [1%Z])) (ATuple [2%Z]) 2%Z.
Lemma grouped_ok : module_ok grouped 2 4 1 2 1 2 1.
Proof. constructor; try reflexivity; try (cbn; lia). - left. reflexivity. - exists 2%Z. cbn. lia. Qed.

Definition cc (i : string) (s e : bool) (d : list (list Z)) : chunk (list Z) := mkChunk i s e d 0%Z.
Definition ct (rs : list (chunk (list Z))) : tens (list Z) := mkTens (longest rs) false rs.
Definition two_streams : list (tens (list Z)) :=
  [ ct [cc "a" true false [[1; 2]; [3; 4]]%Z];
    ct [cc "b" true false [[7; 1]; [8; 1]; [9; 1]]%Z; cc "a" false false [[5; 6]]%Z];
    ct [cc "a" false true [[7; 8]; [9; 9]]%Z; cc "b" false true [[6; 0]; [5; 0]]%Z] ].
Definition two_inputs : list (@stensor Z) := map (fun t => from_batch 2 (tensor_of [0; 0]%Z t)) two_streams.

Lemma two_good : good_schedule (map trows two_streams).
Proof.
  split.
  - repeat constructor; simpl; try discriminate; intuition discriminate.
  - intros i. unfold two_streams, stream_of, cc, ct. cbn [map trows List.concat app filter cid].
    destruct (String.eqb_spec "a" i), (String.eqb_spec "b" i); subst; try congruence; simpl; auto 20.
Qed.

Definition element (x : @stensor Z) (i j p : Z) : Z := at_ (tn x) [i; j; p].

(* ---------- C83 ---------- *)

(** Streaming gives the convolution of the whole sequence, for any weights, bias, groups, stride, dilation and padding, as long
    as the stride does not exceed the kernel. *)
Theorem C83_streaming : forall (V : Type) (A : arith V) (k : conv_args V) (cin cout cg ks s d p : nat) (f : dname)
    (sched : list (tens (list V))) (xs ys : list (@stensor V)) st',
  module_ok k cin cout cg ks s d p -> mask_clears A -> channel_name f -> s <= d * (ks - 1) + 1 ->
  good_schedule (map trows sched) -> Forall (fits (columns_cfg A k cin cout cg ks s d p)) sched ->
  Forall2 (holds cin f) xs (map (tensor_of (repeat (zero A) cin)) sched) ->
  conv_run_t A k (fun _ => None) xs = Ok (ys, st') ->
  exists outs, Forall2 (holds cout f) ys (map (tensor_of (repeat (zero A) cout)) outs) /\
    Forall2 (Forall2 follows) (map trows sched) (map trows outs) /\
    forall i l1 l l2, stream_of i (map trows sched) = l1 ++ l ++ l2 -> complete l ->
      exists o1 o o2, stream_of i (map trows outs) = o1 ++ o ++ o2 /\ length o1 = length l1 /\ length o = length l /\
        convolution_of A k cout cg ks s d p (data_of l) (data_of o).
Proof. intros V A k cin cout cg ks s d p f sched xs ys st' HM. exact (stream_tensor A k cin cout cg ks s d p HM f sched xs ys st'). Qed.

(** It succeeds if in every call some row has enough columns for an output (the condition of C29). *)
Theorem C83_never_fails : forall (V : Type) (A : arith V) (k : conv_args V) (cin cout cg ks s d p : nat) (f : dname)
    (sched : list (tens (list V))) (xs : list (@stensor V)),
  let c := columns_cfg A k cin cout cg ks s d p in
  module_ok k cin cout cg ks s d p -> mask_clears A -> channel_name f -> s < d * (ks - 1) + 1 ->
  good_schedule (map trows sched) -> Forall (fits c) sched ->
  (forall n t, nth_error sched n = Some t -> exists r, In r (trows t) /\
     spans c (so_far (pending c None (stream_of (cid r) (map trows (firstn n sched))))) r) ->
  Forall2 (holds cin f) xs (map (tensor_of (repeat (zero A) cin)) sched) ->
  exists ys st', conv_run_t A k (fun _ => None) xs = Ok (ys, st').
Proof. intros V A k cin cout cg ks s d p f sched xs c HM. exact (never_fails A k cin cout cg ks s d p HM f sched xs). Qed.

(** The plain module on whole sequences gives the same convolution. *)
Theorem C83_plain_module : forall (V : Type) (A : arith V) (k : conv_args V) (cin cout cg ks s d p w : nat) (t : @tensor V) rows,
  module_ok k cin cout cg ks s d p -> holds_data cin w t rows ->
  if w + 2 * p <? d * (ks - 1) + 1 then torch_conv1d_t A t k (Z.of_nat p) = Err RuntimeError
  else exists t' outs, torch_conv1d_t A t k (Z.of_nat p) = Ok t' /\ holds_data cout ((w + 2 * p - (d * (ks - 1) + 1)) / s + 1) t' outs /\
         Forall2 (convolution_of A k cout cg ks s d p) rows outs.
Proof. intros V A k cin cout cg ks s d p w t rows HM. exact (plain_module A k cin cout cg ks s d p HM w t rows). Qed.

(** One call: on tensors and on columns (the model of C26 - C35) the results agree, and so do the errors. *)
Theorem C83_call : forall (V : Type) (A : arith V) (k : conv_args V) (cin cout cg ks s d p : nat) (f : dname) st st' (x : @stensor V) b,
  module_ok k cin cout cg ks s d p -> mask_clears A -> channel_name f -> same_buffers cin st st' -> holds cin f x b -> described b ->
  match conv_call_t A k st x, conv_call (columns_cfg A k cin cout cg ks s d p) st' b with
  | Ok (y, st1), Ok (b1, st1') => holds cout f y b1 /\ same_buffers cin st1 st1'
  | Err e, Err e' => e = e'
  | _, _ => False
  end.
Proof.
  intros V A k cin cout cg ks s d p f st st' x b HM HA Hf HB HX HD.
  pose proof (call_ok A k cin cout cg ks s d p HM f st st' x b HA Hf HB HX HD) as H.
  destruct (conv_call_t A k st x) as [(y, st1)|e], (conv_call _ st' b) as [(b1, st1')|e']; exact H.
Qed.

(** Two streams, in the second and third call with buffers of different lengths; the outputs of stream a against the
    plain module. *)
Example C83_example :
  match conv_run_t ints grouped (fun _ => None) two_inputs,
        torch_conv1d_t ints (from_columns 2 5 [[[1; 2]; [3; 4]; [5; 6]; [7; 8]; [9; 9]]%Z]) grouped 1 with
  | Ok ([y1; y2; y3], _), Ok t =>
      map (fun y => (shp (tn y), lens (smeta y))) [y1; y2; y3] = [([1; 4; 1], [1]); ([2; 4; 2], [2; 1]); ([2; 4; 3], [3; 3])]%Z /\
      map (fun j => map (fun p => at_ t [0; j; p]%Z) [0; 1; 2; 3; 4]%Z) [0; 1; 2; 3]%Z =
      map (fun j => [element y1 0 j 0; element y2 1 j 0; element y3 0 j 0; element y3 0 j 1; element y3 0 j 2]) [0; 1; 2; 3]%Z /\
      map (fun p => at_ t [0; 3; p]%Z) [0; 1; 2; 3; 4]%Z = [332; 362; 392; 414; 356]%Z
  | _, _ => False
  end.
Proof. vm_compute. auto. Qed.

(** The hypotheses of the theorems hold in this case. *)
Example C83_example_hypotheses :
  module_ok grouped 2 4 1 2 1 2 1 /\ mask_clears ints /\ good_schedule (map trows two_streams) /\
  Forall (fits (columns_cfg ints grouped 2 4 1 2 1 2 1)) two_streams /\
  Forall2 (holds 2 (Some "F")) two_inputs (map (tensor_of (repeat (zero ints) 2)) two_streams).
Proof.
  split; [exact grouped_ok|]. split; [split; reflexivity|]. split; [exact two_good|]. split.
  - apply Forall_forall. intros t Ht. apply tight_fits; destruct Ht as [<-|[<-|[<-|[]]]]; try discriminate; reflexivity.
  - cbn [map two_streams two_inputs]. constructor; [|constructor; [|constructor; [|constructor]]]; apply from_batch_holds; repeat constructor.
Qed.

(* ---------- errors ---------- *)

(** torch.conv1d called directly with an int for dilation or stride, the documented default 1 included. *)
Theorem C83_int_arguments_refuted : forall (V : Type) (A : arith V) (k : conv_args V) (x : @stensor V) o c ks n,
  shp (weight k) = [o; c; ks] -> dilation k = AInt n -> padding k = PNum (AInt 0) ->
  conv1d_t A k x = Err TypeError.
Proof. intros V A k x o c ks n E1 E2 E3. unfold conv1d_t. rewrite E3, E1. cbn [int_padding bind]. rewrite E2. reflexivity. Qed.

(** Padding "same" and negative padding are refused whatever the other arguments. *)
Theorem C83_refused_padding : forall (V : Type) (A : arith V) (k : conv_args V) (x : @stensor V),
  (padding k = PSame -> conv1d_t A k x = Err NotImplementedError) /\
  (forall n, (n < 0)%Z -> padding k = PNum (AInt n) \/ padding k = PNum (ATuple [n]) -> conv1d_t A k x = Err AssertionError).
Proof.
  intros V A k x. split; [intros E; unfold conv1d_t; now rewrite E|].
  intros n Hn E. unfold conv1d_t, int_padding. destruct E as [-> | ->]; cbn [bind]; now rewrite (proj2 (Z.ltb_lt n 0) Hn).
Qed.

Example C83_example_refused :
  conv1d_t ints (mkArgs (weight grouped) None (AInt 1) (PNum (AInt 0)) (AInt 1) 2%Z) (hd (from_batch 2 (mkBatch 0 [] (mkMeta [] [] [] [] None))) two_inputs)
    = Err TypeError /\
  conv1d_t ints (mkArgs (weight grouped) None (ATuple [1%Z]) PSame (ATuple [1%Z]) 2%Z) (hd (from_batch 2 (mkBatch 0 [] (mkMeta [] [] [] [] None))) two_inputs)
    = Err NotImplementedError.
Proof. split; vm_compute; reflexivity. Qed.

(** The order of the dimensions is not checked: a tensor (B, L, F) is convolved along F, and the lengths no longer fit. *)
Definition blf : @stensor Z := mkSt (mkTn [1; 3; 3]%Z (fun ix => (nth 1 ix 0 + 10 * nth 2 ix 0)%Z)) [Some "B"; Some "L"; Some "F"]
  (mkMeta ["a"] [true] [true] [3%Z] None).
Definition pair1 : conv_args Z := mkArgs (mkTn [1; 3; 2]%Z (fun _ => 1%Z)) None (ATuple [1%Z]) (PNum (ATuple [0%Z])) (ATuple [1%Z]) 1%Z.
Theorem C83_layout_refuted : exists y tmp,
  stream_ok blf 0 1 false [mkRow "a" true true 3 0] 3 /\
  conv1d_t ints pair1 blf = Ok (y, tmp) /\ names y = [Some "B"; Some "L"; Some "F"] /\ shp (tn y) = [1; 1; 2]%Z /\ lens (smeta y) = [2%Z].
Proof.
  eexists. eexists. split; [|split; [reflexivity|split; [|split]; vm_compute; reflexivity]].
  constructor; try reflexivity; try (repeat constructor; cbn; lia).
  intros i j n Hi Hj. destruct i as [|[|[|[|i]]]], j as [|[|[|[|j]]]]; cbn in Hi, Hj; try reflexivity; try discriminate; congruence.
Qed.

(** Without [mask_clears]: where the output is not finite, the positions after the end of a row do not become zero. None stands
    for nan; None * 0 = None. *)
Definition withnan : arith (option Z) :=
  mkArith (Some 0%Z) (fun v b => match v with Some n => Some (if b then n else 0%Z) | None => None end)
          (fun b l => fold_right (fun q s => match fst q, snd q, s with Some u, Some v, Some w => Some (u * v + w)%Z | _, _, _ => None end) (Some 0%Z) l).
Definition nanrow : @stensor (option Z) :=
  mkSt (mkTn [2; 1; 2]%Z (fun ix => if (nth 0 ix 0 =? 1)%Z && (nth 2 ix 0 =? 1)%Z then None else Some 5%Z)) [Some "B"; None; Some "L"]
       (mkMeta ["a"; "b"] [true; true] [true; true] [2; 1]%Z None).
Definition one1 : conv_args (option Z) := mkArgs (mkTn [1; 1; 1]%Z (fun _ => Some 1%Z)) None (ATuple [1%Z]) PValid (ATuple [1%Z]) 1%Z.
Theorem C83_nan_padding_refuted : exists y tmp, conv1d_t withnan one1 nanrow = Ok (y, tmp) /\
  lens (smeta y) = [2; 1]%Z /\ at_ (tn y) [1; 0; 1]%Z = None.
Proof. eexists. eexists. split; [reflexivity|]. split; vm_compute; reflexivity. Qed.

(* ---- assumptions *)
Print Assumptions C83_streaming.
Print Assumptions C83_never_fails.
Print Assumptions C83_plain_module.
Print Assumptions C83_call.
Print Assumptions C83_int_arguments_refuted.
Print Assumptions C83_refused_padding.
Print Assumptions C83_layout_refuted.
Print Assumptions C83_nan_padding_refuted.

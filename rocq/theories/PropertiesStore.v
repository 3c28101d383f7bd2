(** Theorems of record: memory shared between the caller's tensors and the stream buffers of a convolution (C65).

    [s_run c h no_views es] runs the events [es] (the caller fills a tensor, or calls the module on one) on a store of
    tensors in which the module's buffers are views; [fed (mine h) es] are the batches passed to the module, each with the
    contents it has at the time of the call; [conv_run] is the module of C26-C35, whose buffers are values. See StoreSpec.v. *)

From Coq Require Import String List ZArith Bool Lia.
From Coq Require Import ZifyBool.
From Verif Require Import Py Meta MetaSpec MetaProofs Pad Conv ConvSpec ConvProofs ConvRunProofs ConvStreamProofs Store StoreSpec StoreProofs.
Import ListNotations.
Open Scope string_scope.
Open Scope list_scope.
Open Scope nat_scope.

(* ---------- material for the examples ---------- *)

(** Kernel width 2, no padding; the kernel computes a + 10*b. *)
Definition pair_kernel (l : list Z) : Z := fold_right (fun a s => (a + 10 * s)%Z) 0%Z l.
Definition conv2 : conv_cfg Z := mkCfg 2 1 1 0 pair_kernel 0%Z 0%Z.
Definition one (s e : bool) (n : Z) : meta := mkMeta ["a"] [s] [e] [n] None.
Definition empty_store : store Z := mkStore (fun _ => []) [].

(* ---------- C65 ---------- *)

(** A caller who writes to a tensor only when every stream in it that goes on has been given its next chunk gets the
    outputs, the errors and the buffers of the module whose buffers are values. Missing from the full property: callers who
    do not wait (refuted below). The condition concerns only calls that neither prepend buffers nor pad. *)
Theorem C65_as_values_partial : forall (V : Type) (c : conv_cfg V) (h : store V) (es : list (event V)),
  valid_cfg c -> 1 < kspan c -> Forall one_row_each (fed (mine h) es) -> patient c es ->
  match s_run c h no_views es with
  | Ok (ys, st, h') => exists st0, conv_run c no_buffers (fed (mine h) es) = Ok (ys, st0) /\ forall i, shown h' st i = st0 i
  | Err e => conv_run c no_buffers (fed (mine h) es) = Err e
  end.
Proof. intros V c h es Hv Hk. apply patient_run. rewrite kernel_width_eq by auto. lia. Qed.

(** No condition at all is needed if every call has a running stream (or is padded). *)
Theorem C65_as_values_padded_partial : forall (V : Type) (c : conv_cfg V) (h : store V) (es : list (event V)),
  valid_cfg c -> 1 < kspan c -> Forall one_row_each (fed (mine h) es) ->
  (forall n w m, In (Call n w m) es -> ~ unpadded c w m) ->
  match s_run c h no_views es with
  | Ok (ys, st, h') => exists st0, conv_run c no_buffers (fed (mine h) es) = Ok (ys, st0) /\ forall i, shown h' st i = st0 i
  | Err e => conv_run c no_buffers (fed (mine h) es) = Err e
  end.
Proof.
  intros V c h es Hv Hk HR HU. apply patient_run; auto. { rewrite kernel_width_eq by auto. lia. }
  intros e1 n w m e2 rows e3 i -> U _. exfalso. apply (HU n w m); auto. apply in_or_app. right. left. reflexivity.
Qed.

(** The module never writes to the caller's tensors, whatever the caller does (with kernel width 1 it does: C33). *)
Theorem C65_caller_unaltered : forall (V : Type) (c : conv_cfg V) (h : store V) (es : list (event V)) ys st h',
  valid_cfg c -> 1 < kspan c -> Forall one_row_each (fed (mine h) es) -> s_run c h no_views es = Ok (ys, st, h') ->
  forall k, mine h' k = written (mine h) es k.
Proof.
  intros V c h es ys st h' Hv Hk HR E. apply (run_mine c ltac:(rewrite kernel_width_eq by auto; lia) es h no_views ys st h' HR ltac:(discriminate) E).
Qed.

(** After a call that neither prepends nor pads, the buffer of a stream that goes on is part of the caller's tensor: what the
    caller writes there becomes the buffer. *)
Theorem C65_buffer_is_callers : forall (V : Type) (c : conv_cfg V) (h : store V) (st : views) n w m y st' h' i j L rows,
  valid_cfg c -> 1 < kspan c -> one_row_each (mkBatch w (mine h n) m) -> NoDup (ids m) -> unpadded c w m ->
  s_call c h st n w m = Ok (y, st', h') ->
  nth_error (ids m) j = Some i -> nth_error (eos m) j = Some false -> nth_error (lens m) j = Some (Z.of_nat L) ->
  shown (put h' (Mine n) rows) st' i = Some (skipn (nwin c (L + padn c) * strd c) (firstn (L + padn c) (nth j rows []))).
Proof. intros V c h st n w m y st' h' i j L rows Hv Hk HR ND HU E H1 H2 H3. eapply held_written; eauto. Qed.

(** So a caller who reads every chunk into the same tensor gets wrong output: here the chunks 1 2 and 3 4, with
    windows (1,2), (2,3), (3,4), are convolved as (1,2), (4,3), (3,4). *)
Definition reuse : list (event Z) :=
  [ Write 0 [[1; 2]%Z]; Call 0 2 (one true false 2); Write 0 [[3; 4]%Z]; Call 0 2 (one false true 2) ].
Theorem C65_reuse_refuted : exists (c : conv_cfg Z) (h : store Z) es ys st h' ys0 st0,
  valid_cfg c /\ 1 < kspan c /\ Forall one_row_each (fed (mine h) es) /\
  s_run c h no_views es = Ok (ys, st, h') /\ conv_run c no_buffers (fed (mine h) es) = Ok (ys0, st0) /\
  map bd ys0 = [[[21%Z]]; [[32; 43]%Z]] /\ map bd ys = [[[21%Z]]; [[34; 43]%Z]].
Proof.
  exists conv2, empty_store, reuse. do 5 eexists.
  split; [split; [|split]; vm_compute; lia|]. split; [vm_compute; lia|]. split.
  { unfold reuse. cbn [fed]. apply Forall_cons; [|apply Forall_cons; [|apply Forall_nil]]; (split; [split; [|split; [|split]]|]); vm_compute; auto. }
  split; [vm_compute; reflexivity|]. split; [vm_compute; reflexivity|]. split; vm_compute; reflexivity.
Qed.

(** The buffer holds at most kernel width - 1 columns (C30), but it keeps the whole tensor of the call alive: no bound on the
    memory held by a module follows. *)
Theorem C65_memory_bounded_refuted : forall N, 2 <= N -> exists (h : store Z) m y st h' v,
  s_call conv2 h no_views 0 N m = Ok (y, st, h') /\ st "a" = Some v /\
  length (look h' v) = 1 /\ length (nth (vrow v) (at_loc h' (vloc v)) []) = N.
Proof.
  intros N HN. set (row := repeat 1%Z N). set (h := mkStore (fun _ => [row]) []). set (m := one true false (Z.of_nat N)).
  assert (Hv : valid_cfg conv2) by (split; [|split]; vm_compute; lia).
  assert (Hk : 1 < kspan conv2) by (vm_compute; lia).
  set (t := mkTens N false [mkChunk "a" true false row 0%Z] : tens Z).
  assert (Lr : length row = N) by apply repeat_length.
  assert (ET : tensor_of 0%Z t = mkBatch N [row] m).
  { unfold tensor_of, t, m, one, batch_with, of_rows. cbn -[row Nat.sub]. rewrite Lr, Nat.sub_diag. cbn [repeat]. rewrite app_nil_r. reflexivity. }
  assert (HR : one_row_each (mkBatch N [row] m)) by (split; [split; [|split; [|split]]|]; vm_compute; auto).
  assert (HP : patient conv2 [Call (V := Z) 0 N m]).
  { intros e1 n w m' e2 rows e3 i E. exfalso. destruct e1 as [|x e1]; [|destruct e1; discriminate].
    injection E as _ _ _ E. destruct e2; discriminate. }
  assert (B := C65_as_values_partial Z conv2 h [Call 0 N m] Hv Hk). cbn [fed] in B. specialize (B (Forall_cons _ HR (Forall_nil _)) HP).
  destruct (run_succeeds conv2 [t] Hv) as (ys & st0 & E).
  - vm_compute. lia.
  - split.
    + apply Forall_cons; [|apply Forall_nil]. split; [discriminate|]. split; [apply NoDup_cons; [intros []|apply NoDup_nil]|].
      apply Forall_cons; [|apply Forall_nil]. intros _. cbn [cdat]. intros K. rewrite K in Lr. cbn in Lr. lia.
    + intros i. unfold stream_of, t. cbn [map trows List.concat app filter cid]. destruct (String.eqb "a" i); simpl; auto 20.
  - constructor; [|constructor]. apply tight_fits; [discriminate|]. unfold tight, t. cbn -[row]. lia.
  - intros [|[|k]] t' Ht; cbn in Ht; try discriminate. injection Ht as <-. eexists. split; [left; reflexivity|].
    unfold spans, received. cbn -[row]. try rewrite app_length. cbn -[row]. rewrite ?app_nil_r, Lr. lia.
  - cbn [map] in E. change (zin conv2) with 0%Z in E. rewrite ET in E. change (mine h 0) with [row] in B. rewrite E in B.
    cbn [s_run] in B. destruct (s_call conv2 h no_views 0 N m) as [[[y st'] h']|e] eqn:Es; [|discriminate].
    assert (HU : unpadded conv2 N m) by (split; [intros b [<-|[]]; reflexivity|left; reflexivity]).
    assert (ND : NoDup (ids m)) by (constructor; [intros []|constructor]).
    destruct (held_view conv2 h no_views 0 N m y st' h' "a" 0 N Hv Hk HR ND HU Es eq_refl eq_refl eq_refl) as [C D].
    exists h, m, y, st', h'. eexists. split; [exact Es|]. split; [exact C|]. cbn [vrow vloc at_loc]. rewrite D. cbn [mine h nth].
    split; [|exact Lr].
    pose proof (held_written conv2 h no_views 0 N m y st' h' "a" 0 N Hv Hk HR ND HU Es eq_refl eq_refl eq_refl [row]) as F.
    unfold shown in F. rewrite C in F. cbn [option_map] in F. injection F as F.
    unfold look in *. cbn [vloc vrow vfrom vto at_loc put mine] in *. rewrite D. cbn [mine h nth] in *. change (Nat.eqb 0 0) with true in F. cbn [nth] in F.
    etransitivity; [apply (f_equal (@length Z)); exact F|]. rewrite skipn_length, firstn_length, Lr. cbn [padn conv2 strd]. unfold nwin. change (kspan conv2) with 2. cbn [strd conv2].
    destruct (Nat.ltb_spec (N + 0) 2); [lia|]. rewrite Nat.div_1_r. lia.
Qed.

(** The theorems apply: two tensors used in turn. *)
Definition in_turn : list (event Z) :=
  [ Write 0 [[1; 2]%Z]; Call 0 2 (one true false 2); Write 1 [[3; 4]%Z]; Call 1 2 (one false false 2);
    Write 0 [[5; 6]%Z]; Call 0 2 (one false true 2) ].
Lemma in_turn_patient : patient conv2 in_turn.
Proof.
  intros e1 n w m e2 rows e3 i E U [j [G1 G2]].
  destruct e1 as [|x1 [|x2 [|x3 [|x4 [|x5 [|x6 [|x7 e1]]]]]]]; cbn in E; try discriminate;
    injection E; intros; subst; clear E; destruct U as [U _].
  - destruct e2 as [|y1 [|y2 [|y3 [|y4 [|y5 e2]]]]]; try discriminate.
    match goal with H : _ = _ |- _ => injection H; intros; subst end.
    destruct j as [|j]; [|destruct j; discriminate]. injection G1 as <-.
    do 3 eexists. split; [right; left; reflexivity|left; reflexivity].
  - discriminate (U false (or_introl eq_refl)).
  - discriminate (U false (or_introl eq_refl)).
Qed.
Example C65_example : exists ys st h' st0, s_run conv2 empty_store no_views in_turn = Ok (ys, st, h') /\
  map bd ys = [[[21%Z]]; [[32; 43]%Z]; [[54; 65]%Z]] /\
  conv_run conv2 no_buffers (fed (mine empty_store) in_turn) = Ok (ys, st0) /\
  mine h' 0 = [[5; 6]%Z] /\ mine h' 1 = [[3; 4]%Z].
Proof.
  do 4 eexists. split; [vm_compute; reflexivity|]. split; [vm_compute; reflexivity|]. split; [vm_compute; reflexivity|].
  split; vm_compute; reflexivity.
Qed.

(** With padding 1 the call pads, so the buffer is a view of a new tensor, and one tensor is enough. *)
Definition conv2p : conv_cfg Z := mkCfg 2 1 1 1 pair_kernel 0%Z 0%Z.
Example C65_padded_example : (forall n w m, In (Call n w m) reuse -> ~ unpadded conv2p w m) /\
  exists ys st h', s_run conv2p empty_store no_views reuse = Ok (ys, st, h') /\ map bd ys = [[[10; 21]%Z]; [[32; 43; 4]%Z]].
Proof.
  split.
  - intros n w m [H|[H|[H|[H|[]]]]]; try discriminate; injection H as <- <- <-; intros [U1 U2].
    + destruct U2 as [U2|U2]; [discriminate|]. specialize (U2 0 2%Z false eq_refl eq_refl). cbn in U2. lia.
    + discriminate (U1 false (or_introl eq_refl)).
  - do 3 eexists. split; vm_compute; reflexivity.
Qed.

(* ---- assumptions *)
Print Assumptions C65_as_values_partial.
Print Assumptions C65_as_values_padded_partial.
Print Assumptions C65_caller_unaltered.
Print Assumptions C65_buffer_is_callers.
Print Assumptions C65_reuse_refuted.
Print Assumptions C65_memory_bounded_refuted.

(** Theorems of record about patching and online / offline modes (dreamstream/patches/general.py, modes.py, conv.py):
    C36, C37.  [nodes m] are all modules of the tree [m], [events es m] is [m] after a history of mode switches and
    calls of its convolutions, [mode_after es] the mode asked for last; see ModesSpec.v. *)

From Coq Require Import String List ZArith Bool Lia.
From Verif Require Import Py Meta MetaSpec Pad Conv ConvSpec ConvProofs ConvStreamProofs ConvMoreProofs Modes ModesSpec ModesProofs.
Import ListNotations.
Open Scope string_scope.
Open Scope list_scope.
Open Scope nat_scope.

(** Kernel width 2, no padding, the kernel computes a + 10*b. *)
Definition ex_conv : conv_cfg Z := mkCfg 2 1 1 0 (fun l => fold_right (fun a s => (a + 10 * s)%Z) 0%Z l) 0%Z 0%Z.
(** A model: two blocks, one of them with a convolution and another layer. *)
Definition ex_model : module Z :=
  Mod KOther None [Mod KOther None [Mod (KConv ex_conv) None []; Mod KOther None []]; Mod (KConv ex_conv) None []].
(** First chunk [1; 2; 3] of stream a. *)
Definition ex_first : tensor_in Z := Stream (mkBatch 3 [[1; 2; 3]%Z] (mkMeta ["a"] [true] [false] [3%Z] None)).
Definition ex_second : tensor_in Z := Stream (mkBatch 2 [[4; 5]%Z] (mkMeta ["a"] [false] [true] [2%Z] None)).
(** What the calls of a history of one convolution return. *)
Definition ex_out (t : res (tensor_in Z * option (attrs Z))) : res (list (list Z)) :=
  match t with Ok (Stream y, _) => Ok (bd y) | Ok (Plain _ r, _) => Ok r | Err e => Err e end.
Definition first_conv (m : module Z) : option (option (attrs Z)) :=
  match filter (fun n => match fst n with KConv _ => true | _ => false end) (nodes m) with
  | (_, a) :: _ => Some a
  | [] => None
  end.

(* ------------------------------------------------------------------ C36 *)

(** Patching succeeds exactly for trees without unsupported modules. *)
Theorem C36_patch_succeeds : forall (V : Type) (m : module V),
  (supported m -> snd (patch m) = None) /\ (~ supported m -> snd (patch m) = Some NotImplementedError).
Proof. intros V. exact patch_error. Qed.

(** After any history of switches and calls, every module of a patched tree is in the mode asked for last. *)
Theorem C36_all_modules_in_mode : forall (V : Type) es (m : module V) k a,
  unpatched m -> supported m -> In (k, a) (nodes (events es (fst (patch m)))) ->
  exists x, a = Some x /\ streaming x = mode_after es.
Proof. intros V. exact all_in_mode. Qed.

Example C36_modes_ex :
  map (fun n => option_map streaming (snd n))
      (nodes (events [Switch (Online true); Call [1] ex_first; Switch OnlineOther] (fst (patch ex_model))))
  = repeat (Some true) 5.
Proof. vm_compute. reflexivity. Qed.

(** The behaviour of every patched convolution (exact type nn.Conv1d) after any history of switches and calls:
    offline it rejects StreamTensors and is the unmodified convolution for plain tensors, online it rejects plain
    tensors and is the streaming convolution of C26-C35. *)
Theorem C36_matrix : forall (V : Type) es (m : module V) c a,
  unpatched m -> supported m -> In (KConv c, a) (nodes (events es (fst (patch m)))) ->
  (mode_after es = false ->
     (forall x, node_call c a (Stream x) = Err RuntimeError) /\
     (forall w rows, node_call c a (Plain w rows) = do '(t, _) <- node_call c None (Plain w rows); Ok (t, a))) /\
  (mode_after es = true ->
     (forall w rows, node_call c a (Plain w rows) = Err RuntimeError) /\
     (exists buf, a = Some (mkAttrs true 1 buf) /\ forall x,
        node_call c a (Stream x) = do '(y, buf') <- conv_call c buf x; Ok (Stream y, Some (mkAttrs true 1 buf')))).
Proof. intros V. exact matrix. Qed.

(** The unmodified convolution, explicitly. *)
Theorem C36_offline_values : forall (V : Type) es (m : module V) c a w rows,
  unpatched m -> supported m -> In (KConv c, a) (nodes (events es (fst (patch m)))) -> mode_after es = false ->
  valid_cfg c -> Forall (fun r => length r = w) rows -> kspan c <= w + 2 * padn c ->
  node_call c a (Plain w rows) = Ok (Plain (nwin c (w + 2 * padn c)) (map (offline c) rows), a).
Proof.
  intros V es m c a w rows U S Hin Hm Hc Hr Hk.
  destruct (matrix es m c a U S Hin) as [H _]. destruct (H Hm) as [_ ->].
  unfold node_call. cbn [bind]. rewrite torch_offline by auto.
  destruct (Nat.ltb_spec (w + 2 * padn c) (kspan c)); [lia|]. reflexivity.
Qed.

Example C36_matrix_ex :
  let off := first_conv (events [Switch (Online true); Switch Offline] (fst (patch ex_model))) in
  let on := first_conv (events [Switch (Online true); Call [0; 0] ex_first] (fst (patch ex_model))) in
  option_map (fun a => ex_out (node_call ex_conv a ex_first)) off = Some (Err RuntimeError) /\
  option_map (fun a => ex_out (node_call ex_conv a (Plain 3 [[1; 2; 3]%Z]))) off = Some (Ok [[21; 32]%Z]) /\
  option_map (fun a => ex_out (node_call ex_conv a (Plain 3 [[1; 2; 3]%Z]))) on = Some (Err RuntimeError) /\
  option_map (fun a => ex_out (node_call ex_conv a ex_second)) on = Some (Ok [[43; 54]%Z]).
Proof. vm_compute. repeat split; reflexivity. Qed.

(** The claim is false for subclasses of nn.Conv1d, which patch accepts but does not equip: offline they accept a
    StreamTensor, and online they accept a plain tensor and compute the second chunk without the columns kept from
    the first. *)
Theorem C36_subclass_refuted :
  let m := Mod (KSubConv ex_conv) None [] in
  snd (patch m) = None /\
  (exists a, nodes (fst (patch m)) = [(KSubConv ex_conv, a)] /\
     ex_out (node_call ex_conv a ex_first) = Ok [[21; 32]%Z]) /\
  (exists a, nodes (events [Switch (Online true); Call [] ex_first] (fst (patch m))) = [(KSubConv ex_conv, a)] /\
     ex_out (node_call ex_conv a (Plain 3 [[1; 2; 3]%Z])) = Ok [[21; 32]%Z] /\
     ex_out (node_call ex_conv a ex_second) = Ok [[54]%Z]).
Proof.
  cbv zeta. split; [reflexivity|]. split.
  - eexists. split; [reflexivity|]. vm_compute. reflexivity.
  - eexists. split; [reflexivity|]. split; vm_compute; reflexivity.
Qed.

(** A module that was added after patching breaks mode switching: the call raises AttributeError half way. *)
Theorem C36_late_module_refuted :
  let m := Mod KOther (Some (mkAttrs false 0 no_buffers))
             [Mod (KConv ex_conv) None []; Mod (KConv ex_conv) (Some (mkAttrs false 1 no_buffers)) []] in
  snd (do_switch (Online true) m) = Some AttributeError /\
  map (fun n => option_map streaming (snd n)) (nodes (fst (do_switch (Online true) m))) = [Some true; None; Some false].
Proof. cbv zeta. split; reflexivity. Qed.

(* ------------------------------------------------------------------ C37 *)

(** Offline, any number of patches leaves the behaviour unchanged. *)
Theorem C37_offline_unchanged_partial : forall (V : Type) n es (m : module V) c a,
  unpatched m -> supported m -> In (KConv c, a) (nodes (events es (fst (patches (S (S n)) m)))) ->
  mode_after es = false ->
  (forall x, node_call c a (Stream x) = Err RuntimeError) /\
  (forall w rows, node_call c a (Plain w rows) = do '(t, _) <- node_call c None (Plain w rows); Ok (t, a)).
Proof. intros V n es m c a U S H. exact (proj2 (twice n es m c a U S H)). Qed.

Example C37_offline_ex :
  option_map (fun a => ex_out (node_call ex_conv a (Plain 3 [[1; 2; 3]%Z])))
             (first_conv (events [] (fst (patches 3 ex_model)))) = Some (Ok [[21; 32]%Z]).
Proof. vm_compute. reflexivity. Qed.

(** Online, a module patched twice or more never works: no call of any of its convolutions succeeds, whatever the
    input and the history (both hooks are registered again; the second post-hook finds no buffer). *)
Theorem C37_twice_never_works_refuted : forall (V : Type) n es (m : module V) c a,
  unpatched m -> supported m -> In (KConv c, a) (nodes (events es (fst (patches (S (S n)) m)))) ->
  mode_after es = true -> forall t r, node_call c a t <> Ok r.
Proof. intros V n es m c a U S H. exact (proj1 (twice n es m c a U S H)). Qed.

Example C37_once_and_twice_ex :
  option_map (fun a => ex_out (node_call ex_conv a ex_first))
             (first_conv (events [Switch (Online true)] (fst (patches 1 ex_model)))) = Some (Ok [[21; 32]%Z]) /\
  option_map (fun a => ex_out (node_call ex_conv a ex_first))
             (first_conv (events [Switch (Online true)] (fst (patches 2 ex_model)))) = Some (Err TypeError).
Proof. vm_compute. split; reflexivity. Qed.

(** What a second patch does to a running model: it is offline and its convolutions have lost their buffers. *)
Theorem C37_repatch_resets : forall (V : Type) (m : module V),
  supported m -> snd (patch m) = None /\
  forall k a, In (k, a) (nodes (fst (patch m))) ->
    exists b, a = Some b /\ streaming b = false /\ (forall c, k = KConv c -> stream_buffer b = no_buffers).
Proof.
  intros V m S. destruct (patch_ok m S) as [E N]. split; [exact E|]. intros k a Hin.
  destruct (Forall2_In_r _ _ _ _ N Hin) as ((k0 & a0) & _ & E0 & (b & E2 & E3 & E4)). cbn in E0, E2, E3, E4. subst k0 a.
  exists b. split; [reflexivity|]. split; [exact E3|]. intros c ->. apply E4.
Qed.

Example C37_reset_ex :
  let m := events [Switch (Online true); Call [0; 0] ex_first] (fst (patch ex_model)) in
  option_map (option_map (fun a => (streaming a, stream_buffer a "a"))) (first_conv m) = Some (Some (true, Some [3%Z])) /\
  option_map (option_map (fun a => (streaming a, stream_buffer a "a"))) (first_conv (fst (patch m))) = Some (Some (false, None)).
Proof. vm_compute. split; reflexivity. Qed.

(* ---- assumptions *)
Print Assumptions C36_patch_succeeds.
Print Assumptions C36_all_modules_in_mode.
Print Assumptions C36_matrix.
Print Assumptions C36_offline_values.
Print Assumptions C36_subclass_refuted.
Print Assumptions C36_late_module_refuted.
Print Assumptions C37_offline_unchanged_partial.
Print Assumptions C37_twice_never_works_refuted.
Print Assumptions C37_repatch_resets.

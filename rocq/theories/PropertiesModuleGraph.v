(** Theorems of record about module objects used in several places and about patches that are refused
    (dreamstream/patches/general.py, modes.py, conv.py): C93.  [way i t p]: [p] is a way from the top of the model [t] to the
    object [i]; [one_object]: an object is the same wherever it is used; see ModuleGraphSpec.v. *)

From Coq Require Import String List ZArith Bool Lia.
From Verif Require Import Py Meta Pad Conv ConvSpec Modes ModesSpec ModesProofs ModuleGraph ModuleGraphSpec ModuleGraphProofs.
Import ListNotations.
Open Scope string_scope.
Open Scope list_scope.
Open Scope nat_scope.

(** Kernel width 2, no padding, the kernel computes a + 10*b. *)
Definition mg_conv : conv_cfg Z := mkCfg 2 1 1 0 (fun l => fold_right (fun a s => (a + 10 * s)%Z) 0%Z l) 0%Z 0%Z.
Definition mg_chunk (w : nat) (r : list Z) (first last : bool) : batch Z :=
  mkBatch w [r] (mkMeta ["a"] [first] [last] [Z.of_nat w] None).
(** A block with the convolution 5, and another convolution 6. *)
Definition mg_shared : obj Z := Obj 5 (KConv mg_conv) [].
Definition mg_model : obj Z := Obj 0 KOther [Obj 1 KOther [mg_shared]; Obj 2 KOther [mg_shared; mg_shared]; Obj 6 (KConv mg_conv) []].
Definition mg_out (r : res (tensor_in Z * option (attrs Z))) : res (list (list Z)) :=
  match r with
  | Ok (Stream y, _) => Ok (bd y)
  | Ok (Plain _ rows, _) => Ok rows
  | Err e => Err e
  end.
Definition mg_online (t : obj Z) : attr_store Z := fst (online_obj true t (fst (patch_obj t nothing_patched))).

Ltac find_parts :=
  repeat match goal with
         | H : part_of _ (Obj _ _ _) |- _ => inversion H; clear H; subst
         | H : way _ (Obj _ _ _) _ |- _ => inversion H; clear H; subst
         | H : In _ (_ :: _) |- _ => destruct H as [<-|H]
         | H : In _ [] |- _ => destruct H
         end.

(** Patching registers the hooks of a convolution once for every way that leads to it, and leaves it offline without
    buffers: an object that is registered under several names of one parent counts once, one in different blocks counts
    once for every block. *)
Theorem C93_hooks : forall (V : Type) (t : obj V) s i c ps,
  one_object t -> all_supported t -> conv_at t i c -> NoDup ps -> (forall p, In p ps <-> way i t p) ->
  snd (patch_obj t s) = None /\
  fst (patch_obj t s) i = Some (mkAttrs false (old_hooks (s i) + length ps) no_buffers).
Proof. intros V t s i c ps HO HS HC HN HP. split; [now apply patch_supported|exact (patch_hooks t s i c ps HO HS HC HN HP)]. Qed.

Example C93_hooks_ex :
  option_map hooks (fst (patch_obj mg_model nothing_patched) 5) = Some 2 /\
  option_map hooks (fst (patch_obj mg_model nothing_patched) 6) = Some 1 /\
  one_object mg_model /\ all_supported mg_model /\ (forall p, In p [[0; 1; 5]; [0; 2; 5]] <-> way 5 mg_model p).
Proof.
  split; [vm_compute; reflexivity|]. split; [vm_compute; reflexivity|]. unfold mg_model, mg_shared.
  split; [intros a b Ha Hb; find_parts; cbn; congruence|].
  split; [intros a Ha; find_parts; cbn; discriminate|].
  intros p. split.
  - intros [<-|[<-|[]]].
    + eapply way_down; [left; reflexivity|]; eapply way_down; [left; reflexivity|]; apply way_here.
    + eapply way_down; [right; left; reflexivity|]; eapply way_down; [left; reflexivity|]; apply way_here.
  - intros H. find_parts; cbn; auto.
Qed.

(** A convolution to which only one way leads is equipped once and is the streaming convolution of C26-C35 in online mode. *)
Theorem C93_one_place : forall (V : Type) (t : obj V) i c p,
  one_object t -> all_supported t -> conv_at t i c -> (forall q, way i t q <-> q = p) ->
  snd (online_obj true t (fst (patch_obj t nothing_patched))) = None /\
  fst (online_obj true t (fst (patch_obj t nothing_patched))) i = Some (mkAttrs true 1 no_buffers) /\
  forall x, node_call c (fst (online_obj true t (fst (patch_obj t nothing_patched))) i) (Stream x)
            = do '(y, buf') <- conv_call c no_buffers x; Ok (Stream y, Some (mkAttrs true 1 buf')).
Proof. intros V t i c p. apply single_works. Qed.

Example C93_one_place_ex :
  mg_out (node_call mg_conv (mg_online mg_model 6) (Stream (mg_chunk 3 [1; 2; 3]%Z true false))) = Ok [[21; 32]%Z].
Proof. vm_compute. reflexivity. Qed.

(** The claim is false for a convolution in two blocks: patch and online succeed, and afterwards no call of it ever does. *)
Theorem C93_shared_refuted : forall (V : Type) (t : obj V) i c p q,
  one_object t -> all_supported t -> conv_at t i c -> way i t p -> way i t q -> p <> q ->
  snd (patch_obj t nothing_patched) = None /\
  snd (online_obj true t (fst (patch_obj t nothing_patched))) = None /\
  forall x r, node_call c (fst (online_obj true t (fst (patch_obj t nothing_patched))) i) x <> Ok r.
Proof. intros V t i c p q. apply shared_never_works. Qed.

Example C93_shared_ex :
  mg_out (node_call mg_conv (mg_online mg_model 5) (Stream (mg_chunk 3 [1; 2; 3]%Z true false))) = Err TypeError /\
  mg_out (node_call mg_conv (mg_online mg_model 5) (Plain 3 [[1; 2; 3]%Z])) = Err RuntimeError.
Proof. split; vm_compute; reflexivity. Qed.

(** patch refuses exactly the models that contain an unsupported module somewhere. *)
Theorem C93_refused : forall (V : Type) (t : obj V) s, one_object t ->
  (snd (patch_obj t s) = None <-> all_supported t) /\
  (~ all_supported t -> snd (patch_obj t s) = Some NotImplementedError).
Proof. intros V t s. apply patch_refuses. Qed.

Definition mg_refused : obj Z := Obj 9 KOther [mg_model; Obj 7 KUnsupported []].

Example C93_refused_ex :
  snd (patch_obj mg_refused nothing_patched) = Some NotImplementedError /\ snd (patch_obj mg_model nothing_patched) = None.
Proof. split; vm_compute; reflexivity. Qed.

(** Whether patch succeeds or not, a model that was not online treats plain tensors as before. *)
Theorem C93_plain_unchanged : forall (V : Type) (t : obj V) s (c : conv_cfg V) i w rows,
  (forall j a, s j = Some a -> streaming a = false) ->
  exists a, node_call c (fst (patch_obj t s) i) (Plain w rows) = do '(y, _) <- node_call c None (Plain w rows); Ok (y, a).
Proof.
  intros V t s c i w rows H. apply patch_offline_plain. intros j. specialize (H j). destruct (s j) as [a|]; [exact (H a eq_refl)|exact I].
Qed.

Example C93_plain_ex :
  mg_out (node_call mg_conv (fst (patch_obj mg_refused nothing_patched) 5) (Plain 3 [[1; 2; 3]%Z])) = Ok [[21; 32]%Z].
Proof. vm_compute. reflexivity. Qed.

(** A refused model is not left as it was: when only its encoder is patched after the refusal, that succeeds, and the
    convolutions of the encoder never work online, also those that are used in one place. *)
Theorem C93_after_refusal_refuted : forall (V : Type) (enc : obj V) r u i c,
  one_object enc -> all_supported enc -> conv_at enc i c -> (forall p, ~ way u enc p) ->
  let s := fst (patch_obj (Obj r KOther [enc; Obj u KUnsupported []]) nothing_patched) in
  snd (patch_obj (Obj r KOther [enc; Obj u KUnsupported []]) nothing_patched) = Some NotImplementedError /\
  snd (patch_obj enc s) = None /\ snd (online_obj true enc (fst (patch_obj enc s))) = None /\
  forall x y, node_call c (fst (online_obj true enc (fst (patch_obj enc s))) i) x <> Ok y.
Proof. intros V enc r u i c. apply refused_then_part. Qed.

Example C93_after_refusal_ex :
  let s := fst (patch_obj mg_refused nothing_patched) in
  mg_out (node_call mg_conv (fst (online_obj true mg_model (fst (patch_obj mg_model s))) 6) (Stream (mg_chunk 3 [1; 2; 3]%Z true false)))
  = Err TypeError.
Proof. vm_compute. reflexivity. Qed.

(** online and offline work exactly on models of which every module has been patched (also by an earlier patch of another
    model, also by one that was refused): a module added afterwards makes them raise AttributeError. *)
Theorem C93_switch : forall (V : Type) b (t : obj V) s, one_object t ->
  (snd (online_obj b t s) = None <-> forall d, part_of d t -> s (oid d) <> None) /\
  (forall d, part_of d t -> s (oid d) = None -> snd (online_obj b t s) = Some AttributeError).
Proof. intros V b t s. apply online_refuses. Qed.

Example C93_switch_ex :
  let s := fst (patch_obj mg_model nothing_patched) in
  snd (online_obj true (Obj 1 KOther [mg_shared]) s) = None /\
  snd (online_obj true (Obj 1 KOther [mg_shared; Obj 8 KOther []]) s) = Some AttributeError /\
  option_map streaming (fst (online_obj true (Obj 1 KOther [mg_shared; Obj 8 KOther []]) s) 5) = Some true.
Proof. cbv zeta. split; [vm_compute; reflexivity|]. split; vm_compute; reflexivity. Qed.

(** What it leaves behind: every object of the model in the mode asked for with its hooks and its buffers, all others as they were. *)
Theorem C93_switch_exact : forall (V : Type) b (t : obj V) s, one_object t -> snd (online_obj b t s) = None ->
  (forall d, part_of d t -> exists a, s (oid d) = Some a /\ fst (online_obj b t s) (oid d) = Some (mkAttrs b (hooks a) (stream_buffer a))) /\
  (forall j, (forall d, part_of d t -> oid d <> j) -> fst (online_obj b t s) j = s j).
Proof. intros V b t s. apply online_exact. Qed.

Theorem C93_switch_last : forall (V : Type) b b' (t : obj V) s, one_object t -> snd (online_obj b t s) = None ->
  snd (online_obj b' t (fst (online_obj b t s))) = None /\
  forall j, fst (online_obj b' t (fst (online_obj b t s))) j = fst (online_obj b' t s) j.
Proof. intros V b b' t s. apply online_twice. Qed.

Example C93_switch_exact_ex :
  let s := fst (patch_obj mg_model nothing_patched) in
  let on := fst (online_obj true (Obj 1 KOther [mg_shared]) s) in
  map (fun i => option_map streaming (on i)) [1; 5; 6] = [Some true; Some true; Some false] /\
  map (fun i => option_map hooks (on i)) [1; 5; 6] = map (fun i => option_map hooks (s i)) [1; 5; 6] /\
  map (fun i => option_map streaming (fst (online_obj false mg_model on) i)) [1; 5; 6] = [Some false; Some false; Some false].
Proof. cbv zeta. split; [vm_compute; reflexivity|]. split; vm_compute; reflexivity. Qed.

(** If an object was added to the model after patching, the switch fails and is not undone: the top is in the new mode, the
    added object has none. *)
Theorem C93_failed_switch_refuted : forall (V : Type) b (t d : obj V) s a,
  one_object t -> part_of d t -> s (oid d) = None -> s (oid t) = Some a ->
  snd (online_obj b t s) = Some AttributeError /\
  fst (online_obj b t s) (oid t) = Some (mkAttrs b (hooks a) (stream_buffer a)) /\ fst (online_obj b t s) (oid d) = None.
Proof. intros V b t d s a. apply failed_switch. Qed.

Example C93_failed_switch_ex :
  let s := fst (patch_obj mg_model nothing_patched) in
  let r := online_obj true (Obj 1 KOther [Obj 8 KOther []; mg_shared]) s in
  snd r = Some AttributeError /\ map (fun i => option_map streaming (fst r i)) [1; 8; 5] = [Some true; None; Some false].
Proof. cbv zeta. split; vm_compute; reflexivity. Qed.

(** A forward that applies one convolution object twice: the last chunk of a stream never gets through (the first application
    has removed the buffer that the second one needs). *)
Theorem C93_applied_twice_refuted : forall (V : Type) (c : conv_cfg V) st (x : batch V) i r,
  (1 < kernel_width c)%Z -> ids (bm x) = [i] -> sos (bm x) = [false] -> eos (bm x) = [true] -> applied_twice c st x <> Ok r.
Proof. intros V c st x i r. apply reused_end. Qed.

(** Before the last chunk the values are wrong: the first application reads the columns kept by the second. *)
Theorem C93_applied_twice_values_refuted : exists (c : conv_cfg Z) (x1 x2 : batch Z) (x : list Z) ys,
  bd x1 = [firstn 3 x] /\ bd x2 = [skipn 3 x] /\ run_twice c no_buffers [x1; x2] = Ok ys /\
  List.concat (map (fun y => List.concat (bd y)) ys) <> offline c (offline c x).
Proof.
  exists mg_conv, (mg_chunk 3 [1; 2; 3]%Z true false), (mg_chunk 2 [4; 5]%Z false false), [1; 2; 3; 4; 5]%Z.
  destruct (run_twice mg_conv no_buffers [mg_chunk 3 [1; 2; 3]%Z true false; mg_chunk 2 [4; 5]%Z false false]) as [ys|e] eqn:E.
  - exists ys. split; [reflexivity|]. split; [reflexivity|]. split; [reflexivity|].
    assert (F : match run_twice mg_conv no_buffers [mg_chunk 3 [1; 2; 3]%Z true false; mg_chunk 2 [4; 5]%Z false false] with
                | Ok l => map (fun y => List.concat (bd y)) l = [[341]; [725; 612]]%Z | Err _ => False end) by (vm_compute; reflexivity).
    rewrite E in F. rewrite F. vm_compute. discriminate.
  - exfalso. assert (F : match run_twice mg_conv no_buffers [mg_chunk 3 [1; 2; 3]%Z true false; mg_chunk 2 [4; 5]%Z false false] with
                | Ok _ => True | Err _ => False end) by (vm_compute; exact I). rewrite E in F. exact F.
Qed.

Example C93_applied_twice_ex :
  match run_twice mg_conv no_buffers [mg_chunk 5 [1; 2; 3; 4; 5]%Z true true] with Ok ys => map (@bd Z) ys = [[[341; 462; 583]%Z]] | Err _ => False end /\
  match run_twice mg_conv no_buffers [mg_chunk 3 [1; 2; 3]%Z true false; mg_chunk 2 [4; 5]%Z false true] with Ok _ => False | Err e => e = TypeError end.
Proof. split; vm_compute; reflexivity. Qed.

(* ---- assumptions *)
Print Assumptions C93_hooks.
Print Assumptions C93_one_place.
Print Assumptions C93_shared_refuted.
Print Assumptions C93_refused.
Print Assumptions C93_plain_unchanged.
Print Assumptions C93_after_refusal_refuted.
Print Assumptions C93_switch.
Print Assumptions C93_switch_exact.
Print Assumptions C93_switch_last.
Print Assumptions C93_failed_switch_refuted.
Print Assumptions C93_applied_twice_refuted.
Print Assumptions C93_applied_twice_values_refuted.

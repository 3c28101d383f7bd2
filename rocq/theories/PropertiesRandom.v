(** Theorems of record: random stream tensors (C66).

    [ul], [us], [ue] are the draws for lengths and flags: k stands for k / 2^24. *)

From Coq Require Import String List ZArith Bool Lia.
From Coq Require Import ZifyBool.
From Verif Require Import Py Meta MetaSpec Named NamedSpec F32 Random RandomProofs.
Import ListNotations.
Open Scope string_scope.
Open Scope list_scope.
Open Scope Z_scope.

(** The result has the given data and names; its metadata have one row per position of the batch dimension, different ids,
    no chunk indices, and lengths that fit the length dimension. *)
Theorem C66_fits : forall (V : Type) (t : @tensor V) nms ul us ue db dl,
  length nms = length (shp t) -> names_distinct nms -> Forall (fun n => 0 <= n) (shp t) -> (forall i, 0 <= ul i < 2 ^ 24) ->
  nth_error nms db = Some (Some "B") -> nth_error nms dl = Some (Some "L") ->
  exists x, rand_stream_tensor t nms ul us ue = Ok x /\ tn x = t /\ names x = nms /\ wf (smeta x) /\ chs (smeta x) = None /\
    Z.of_nat (length (ids (smeta x))) = nth db (shp t) 0 /\ NoDup (ids (smeta x)) /\
    Forall (fun n => 0 <= n <= nth dl (shp t) 0) (lens (smeta x)).
Proof.
  intros V t nms ul us ue db dl Hl Hd Hs Hu Hb HL. eexists. split; [exact (rand_ok t nms ul us ue db dl Hl Hd Hb HL)|].
  cbn [tn names smeta ids sos eos lens chs]. split; [reflexivity|]. split; [reflexivity|]. split.
  { unfold wf. cbn [ids sos eos lens chs]. rewrite !map_length. auto. }
  split; [reflexivity|].
  assert (NN : forall d, 0 <= nth d (shp t) 0).
  { intros d. destruct (nth_in_or_default d (shp t) 0) as [I|E]; [|rewrite E; lia]. rewrite Forall_forall in Hs. auto. }
  split. { rewrite map_length, seq_length. apply Z2Nat.id. apply NN. }
  split; [apply strs_nodup|]. apply Forall_forall. intros n Hn. apply in_map_iff in Hn as (i & <- & _). unfold size.
  specialize (NN dl). destruct (Z.eq_dec (nth dl (shp t) 0) 0) as [E|E].
  - rewrite E. unfold rand_length. cbn. rewrite Z.mul_0_r. cbn. lia.
  - pose proof (rand_length_bound (ul i) (nth dl (shp t) 0) (Hu i) ltac:(lia)). lia.
Qed.

(** In every other case the call fails. *)
Theorem C66_rejects : forall (V : Type) (t : @tensor V) nms ul us ue,
  ~ (length nms = length (shp t) /\ names_distinct nms /\ In (Some "B") nms /\ In (Some "L") nms) ->
  rand_stream_tensor t nms ul us ue = Err RuntimeError.
Proof. intros V. exact rand_err. Qed.

(** Every length below the size of the dimension can be drawn. *)
Theorem C66_lengths_possible : forall n T, 0 <= n < T -> T <= 2 ^ 23 -> exists k, 0 <= k < 2 ^ 24 /\ rand_length k T = n.
Proof. exact rand_length_reached. Qed.

(** Every combination of flags can be drawn. *)
Theorem C66_flags_possible : forall (V : Type) (t : @tensor V) nms ul db dl (s e : list bool),
  length nms = length (shp t) -> names_distinct nms ->
  nth_error nms db = Some (Some "B") -> nth_error nms dl = Some (Some "L") ->
  Z.of_nat (length s) = nth db (shp t) 0 -> length e = length s ->
  exists us ue x, (forall i, 0 <= us i < 2 ^ 24 /\ 0 <= ue i < 2 ^ 24) /\
    rand_stream_tensor t nms ul us ue = Ok x /\ sos (smeta x) = s /\ eos (smeta x) = e.
Proof. intros V. exact rand_flags. Qed.

(** But the length of the dimension itself cannot, whatever it is: no stream is ever as long as the data. *)
Theorem C66_full_length_refuted : forall (V : Type) (t : @tensor V) nms ul us ue dl x,
  names_distinct nms -> nth_error nms dl = Some (Some "L") -> 0 < nth dl (shp t) 0 -> (forall i, 0 <= ul i < 2 ^ 24) ->
  rand_stream_tensor t nms ul us ue = Ok x -> Forall (fun n => 0 <= n < nth dl (shp t) 0) (lens (smeta x)).
Proof.
  intros V t nms ul us ue dl x Hd HL Hp Hu E.
  destruct (in_dec dname_dec (Some "B") nms) as [I|I]; [|rewrite rand_err in E by (unfold BATCH; tauto); discriminate].
  destruct (Nat.eq_dec (length nms) (ndim t)) as [Hl|Hl]; [|rewrite rand_err in E by tauto; discriminate].
  apply In_nth_error in I as [db Hb]. rewrite (rand_ok t nms ul us ue db dl Hl Hd Hb HL) in E. injection E as <-. cbn [smeta lens].
  apply Forall_forall. intros n Hn. apply in_map_iff in Hn as (i & <- & _). now apply rand_length_bound.
Qed.

Example C66_example :
  let t := mkTn [2; 3; 5] (fun ix => ix) in
  let nms := [Some "B"; None; Some "L"] in
  let ul := fun i => match i with O => 2 ^ 24 - 1 | _ => 2 ^ 23 end in
  names_distinct nms /\
  exists x, rand_stream_tensor t nms ul (fun i => 2 ^ 23 - Z.of_nat i) (fun i => Z.of_nat i) = Ok x /\
    smeta x = mkMeta ["0"; "1"] [false; true] [true; true] [4; 2] None.
Proof.
  cbn zeta. split.
  - intros i j s. destruct i as [|[|[|i]]], j as [|[|[|j]]]; cbn; intros H1 H2; try reflexivity; try discriminate; try congruence;
      try (destruct i; discriminate); try (destruct j; discriminate).
  - eexists. split; [vm_compute; reflexivity|]. vm_compute. reflexivity.
Qed.

(** One step: all streams are empty. *)
Example C66_one_step_example :
  exists x, rand_stream_tensor (mkTn [2; 1] (fun ix => ix)) [Some "B"; Some "L"] (fun i => 2 ^ 24 - 1 - Z.of_nat i) (fun _ => 0) (fun _ => 0) = Ok x /\
    lens (smeta x) = [0; 0].
Proof. eexists. split; [vm_compute; reflexivity|]. vm_compute. reflexivity. Qed.

Example C66_rejects_example :
  rand_stream_tensor (mkTn [2; 3] (fun ix => ix)) [Some "B"; None] (fun i => 0) (fun _ => 0) (fun _ => 0) = Err RuntimeError.
Proof. vm_compute. reflexivity. Qed.

Example C66_large_example : rand_length (2 ^ 24 - 1) (2 ^ 24 + 3) = 2 ^ 24 + 2 /\ rand_length (2 ^ 24 - 1) 16777215 = 16777214.
Proof. split; vm_compute; reflexivity. Qed.

(* ---- assumptions *)
Print Assumptions C66_fits.
Print Assumptions C66_rejects.
Print Assumptions C66_lengths_possible.
Print Assumptions C66_flags_possible.
Print Assumptions C66_full_length_refuted.

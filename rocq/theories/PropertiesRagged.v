(** Theorems of record: padding tensors of any rank (C79, C80). *)

From Coq Require Import String List ZArith Bool Lia.
From Coq Require Import ZifyBool.
From Verif Require Import Py Meta MetaSpec Named NamedSpec Gather Ragged RaggedSpec RaggedProofs PadTensorProofs UnpadTensorProofs.
From Verif Require Pad.
Import ListNotations.
Open Scope string_scope.
Open Scope list_scope.
Open Scope Z_scope.

(* ---------- C79 ---------- *)

(** concatenate_ragged of tensors that agree except in dimension [k]: the tensors, one after the other along a new first
    dimension, padded with [z] to the greatest size of dimension [k]. *)
Theorem C79_stack : forall (V : Type) (z : V) dim k (t0 : @tensor V) l, denotes (length (shp t0)) dim k ->
  Forall (alike_but k t0) (t0 :: l) ->
  exists r m, concatenate_ragged z (t0 :: l) dim = Ok r /\
    length (shp r) = S (length (shp t0)) /\ nth 0 (shp r) 0 = zlen (t0 :: l) /\
    (forall d, d <> k -> nth (S d) (shp r) 0 = nth d (shp t0) 0) /\
    nth (S k) (shp r) 0 = m /\ greatest m (map (fun t => nth k (shp t) 0) (t0 :: l)) /\
    (forall b t ix, nth_error (t0 :: l) b = Some t -> in_range (shp t) ix -> at_ r (Z.of_nat b :: ix) = at_ t ix) /\
    (forall b t ix, nth_error (t0 :: l) b = Some t -> length ix = length (shp t) -> nth k (shp t) 0 <= nth k ix 0 -> at_ r (Z.of_nat b :: ix) = z).
Proof.
  intros V z dim k t0 l Hd HA. destruct (ragged_general z dim k t0 l Hd) as (r & E & [K1 K2 K3 K4 K5 K6]).
  { eapply Forall_impl; [|exact HA]. intros t. apply alike_nearly. }
  exists r, (nth (S k) (shp r) 0). repeat (split; [assumption || reflexivity|]).
  assert (HL : forall b t, nth_error (t0 :: l) b = Some t -> length (shp t) = length (shp t0)).
  { intros b t Hb. apply nth_error_In in Hb. rewrite Forall_forall in HA. apply (HA t Hb). }
  split.
  - intros b t ix Hb Hix. pose proof (HL b t Hb) as Ht.
    assert (Lx : length ix = length (shp t)) by (clear -Hix; induction Hix; cbn [length]; lia).
    apply (K5 b t ix ix Hb); [lia|now apply reads_at_self|].
    destruct Hd as [Hk _]. rewrite <- Ht in Hk. clear -Hix Hk. revert k Hk.
    induction Hix as [|n i s ix Hi _ IH]; intros k Hk; cbn [length] in Hk; [lia|]. destruct k as [|k]; cbn [nth]; [lia|apply IH; lia].
  - intros b t ix Hb Hix Hge. apply (K6 b t ix Hb); [rewrite Hix; eapply HL; exact Hb|exact Hge].
Qed.

(** A size 1 in another dimension stands for any size: its only position is read everywhere (see the refutation below). *)
Theorem C79_ones : forall (V : Type) (z : V) dim k (t0 : @tensor V) l, denotes (length (shp t0)) dim k ->
  Forall (nearly_alike_but k t0) (t0 :: l) ->
  exists r, concatenate_ragged z (t0 :: l) dim = Ok r /\ stacked z k t0 (t0 :: l) r.
Proof. intros V z dim k t0 l. apply ragged_general. Qed.

(** Any other difference is refused. *)
Theorem C79_misfit : forall (V : Type) (z : V) dim k (t0 : @tensor V) l t d, denotes (length (shp t0)) dim k ->
  Forall (fun u => length (shp u) = length (shp t0)) l -> In t l -> (d < length (shp t0))%nat -> d <> k ->
  nth d (shp t) 0 <> nth d (shp t0) 0 -> nth d (shp t) 0 <> 1 ->
  concatenate_ragged z (t0 :: l) dim = Err RuntimeError.
Proof. intros V z dim k t0 l t d. apply ragged_misfit. Qed.

Theorem C79_empty : forall (V : Type) (z : V) dim,
  concatenate_ragged z [] dim = Err (if 0 <=? dim then RuntimeError else IndexError).
Proof. intros V z dim. unfold concatenate_ragged. destruct (0 <=? dim); reflexivity. Qed.

Theorem C79_no_dimension : forall (V : Type) (z : V) dim (t0 : @tensor V) l, shp t0 <> [] ->
  (Z.of_nat (length (shp t0)) <= dim \/ dim < - 2 * Z.of_nat (length (shp t0))) ->
  concatenate_ragged z (t0 :: l) dim = Err IndexError.
Proof. intros V z dim t0 l. apply ragged_no_dim. Qed.

(** What Data.v and Pad.v say about rows of columns is what happens to the tensors: the columns of the result are the padded
    columns of the tensors. *)
Theorem C79_columns : forall (V : Type) (z : V) dim k (t0 : @tensor V) l, denotes (length (shp t0)) dim k ->
  Forall (alike_but k t0) (t0 :: l) -> Forall (fun t => 0 <= nth k (shp t) 0) (t0 :: l) ->
  exists r w rows, concatenate_ragged z (t0 :: l) dim = Ok r /\
    Pad.torch_pad_sequence (fun _ => z) (map (columns k) (t0 :: l)) = Ok (w, rows) /\
    nth (S k) (shp r) 0 = Z.of_nat w /\
    (forall b row p v s1 n s2 a c, nth_error rows b = Some row -> nth_error row p = Some v ->
       shp t0 = s1 ++ n :: s2 -> length s1 = k -> in_range s1 a -> in_range s2 c ->
       at_ r (Z.of_nat b :: a ++ Z.of_nat p :: c) = v (a, c)).
Proof. intros V z dim k t0 l. apply ragged_columns. Qed.

(** Elements numbered in base 10 after [base]. *)
Definition ex_num (base : Z) (s : list Z) : @tensor Z := mkTn s (fun ix => fold_left (fun a i => 10 * a + i) ix base).
Definition ex_see (r : res (@tensor Z)) : res (list Z * list Z) := do t <- r; Ok (shp t, map (at_ t) (all_positions (shp t))).

Example C79_example :
  ex_see (concatenate_ragged 0 [ex_num 1 [2; 1]; ex_num 2 [2; 3]] (-1))
    = Ok ([2; 2; 3], [100; 0; 0; 110; 0; 0; 200; 201; 202; 210; 211; 212]) /\
  ex_see (concatenate_ragged 0 [ex_num 1 [2; 1]; ex_num 2 [1; 1]] 0) = Ok ([2; 2; 1], [100; 110; 200; 0]).
Proof. split; vm_compute; reflexivity. Qed.

(** The other sizes need not agree: after a file with two channels, a file with one channel is accepted and its channel is
    copied into both; the other way round the same batch is refused. *)
Theorem C79_one_channel_refuted : exists (t1 t2 : @tensor Z) r, nth 0 (shp t1) 0 <> nth 0 (shp t2) 0 /\
  concatenate_ragged 0 [t1; t2] (-1) = Ok r /\ at_ r [1; 0; 0] = at_ t2 [0; 0] /\ at_ r [1; 1; 0] = at_ t2 [0; 0] /\
  concatenate_ragged 0 [t2; t1] (-1) = Err RuntimeError.
Proof.
  exists (ex_num 1 [2; 2]), (ex_num 2 [1; 2]). eexists. split; [discriminate|]. split; [vm_compute; reflexivity|].
  split; [vm_compute; reflexivity|]. split; vm_compute; reflexivity.
Qed.

(** A dimension below -rank is not refused: for tensors of rank 2, dim = -3 counts from the end twice, and the batch is not
    the first dimension of the result. *)
Theorem C79_negative_dim_refuted : exists (t1 t2 : @tensor Z) r, length (shp t1) = 2%nat /\ length (shp t2) = 2%nat /\
  concatenate_ragged 0 [t1; t2] (-3) = Ok r /\ nth 0 (shp r) 0 = 3 /\ nth 1 (shp r) 0 = 2.
Proof.
  exists (ex_num 1 [4; 1]), (ex_num 2 [4; 3]). eexists. split; [reflexivity|]. split; [reflexivity|].
  split; [vm_compute; reflexivity|]. split; vm_compute; reflexivity.
Qed.

(* ---------- C80 ---------- *)

(** pad_chunks on tensors with dimensions [pre ++ L :: post]: length and batch come first, the others keep their order, and
    every element is found again at its place; lengths are the sizes of the tensors. *)
Theorem C80_pads : forall (V : Type) (z : V) bf (pre post : list dname) (t0 : @tensor V) l i s e,
  names_distinct (pre ++ Some "L" :: post) -> ~ In (Some "B") (pre ++ post) ->
  length (shp t0) = (length pre + S (length post))%nat -> Forall (nearly_alike_but (length pre) t0) (t0 :: l) ->
  length i = S (length l) -> length s = S (length l) -> length e = S (length l) ->
  exists x, pad_chunks_t z (t0 :: l) (pre ++ Some "L" :: post) i s e bf = Ok x /\ padded z bf pre post t0 (t0 :: l) i s e x.
Proof. intros V z bf pre post t0 l i s e. apply pad_chunks_general. Qed.

(** The result is a well-formed StreamTensor: all theorems about [stream_ok] apply to it. *)
Theorem C80_well_formed : forall (V : Type) (z : V) bf (pre post : list dname) (t0 : @tensor V) l rs, pad_ready pre post t0 l rs ->
  exists x T, pad_chunks_t z (t0 :: l) (pre ++ Some "L" :: post) (map rid rs) (map rsos rs) (map reos rs) bf = Ok x /\
    padded z bf pre post t0 (t0 :: l) (map rid rs) (map rsos rs) (map reos rs) x /\
    stream_ok x (if bf then 0 else 1) (if bf then 1 else 0) false rs T.
Proof. intros V z bf pre post t0 l rs. apply pad_ready_ok. Qed.

(** unpad_sequence of any well-formed StreamTensor, whatever the order of its dimensions: x[b, :length of b] for every b. *)
Theorem C80_unpad : forall (V : Type) (x : @stensor V) bd ld c rs T, stream_ok x bd ld c rs T ->
  exists ys, unpad_sequence_t x = Ok ys /\ length ys = length rs /\
    (forall b r y, nth_error rs b = Some r -> nth_error ys b = Some y ->
       names y = kept (unpad_sel (length (shp (tn x))) bd ld (Z.of_nat b) (rlen r)) (names x) /\
       selected (tn x) (unpad_sel (length (shp (tn x))) bd ld (Z.of_nat b) (rlen r)) (tn y) /\
       smeta y = of_rows c [unpad_row r]).
Proof. intros V x bd ld c rs T. apply unpad_tensor. Qed.

(** Padding and unpadding: the tensors come back with the length dimension first. *)
Theorem C80_pad_then_unpad : forall (V : Type) (z : V) bf (pre post : list dname) (t0 : @tensor V) l rs, pad_ready pre post t0 l rs ->
  exists x ys, pad_chunks_t z (t0 :: l) (pre ++ Some "L" :: post) (map rid rs) (map rsos rs) (map reos rs) bf = Ok x /\
    unpad_sequence_t x = Ok ys /\ length ys = length rs /\
    (forall b t r y, nth_error (t0 :: l) b = Some t -> nth_error rs b = Some r -> nth_error ys b = Some y ->
       names y = Some "L" :: pre ++ post /\ smeta y = of_rows false [unpad_row r] /\
       (exists s1 n s2, shp t = s1 ++ n :: s2 /\ length s1 = length pre /\ shp (tn y) = n :: s1 ++ s2) /\
       (forall a p c, length a = length pre -> in_range (shp t) (a ++ p :: c) -> at_ (tn y) (p :: a ++ c) = at_ t (a ++ p :: c))).
Proof. intros V z bf pre post t0 l rs. apply pad_unpad_tensor. Qed.

(** pad_full_sequence sets both flags everywhere. *)
Theorem C80_full : forall (V : Type) (z : V) bf nms (ts : list (@tensor V)) i,
  pad_full_sequence_t z ts nms i bf = pad_chunks_t z ts nms i (map (fun _ => true) ts) (map (fun _ => true) ts) bf.
Proof.
  intros V z bf nms ts i. unfold pad_full_sequence_t.
  assert (E : repeat true (length ts) = map (fun _ => true) ts) by (induction ts; cbn; congruence). now rewrite E.
Qed.

(** pad_stream_tensor of single streams: pad_chunks with the names of the FIRST stream and everybody's ids and flags. *)
Theorem C80_rebatch : forall (V : Type) (z : V) bf (pre post : list dname) (x0 : @stensor V) xs c rs,
  names x0 = pre ++ Some "L" :: post -> Forall2 (fun r x => smeta x = of_rows c [r]) rs (x0 :: xs) ->
  pad_stream_tensor_t z (x0 :: xs) bf
    = pad_chunks_t z (map tn (x0 :: xs)) (pre ++ Some "L" :: post) (map rid rs) (map rsos rs) (map reos rs) bf.
Proof. intros V z bf pre post x0 xs c rs. apply pad_stream_general. Qed.

Theorem C80_names_refused : forall (V : Type) (z : V) bf nms (ts : list (@tensor V)) i s e,
  In (Some "B") nms \/ ~ In (Some "L") nms -> pad_chunks_t z ts nms i s e bf = Err ValueError.
Proof. intros V z bf nms ts i s e [H|H]; [now apply pad_chunks_batch|now apply pad_chunks_nolength]. Qed.

(** The model on rows of columns (Pad.v, C49) is this one, seen column by column. *)
Theorem C80_columns : forall (V : Type) (z : V) bf (pre post : list dname) (t0 : @tensor V) l rs nms, pad_ready pre post t0 l rs ->
  ~ In "B" nms -> In "L" nms ->
  exists x w rows, pad_chunks_t z (t0 :: l) (pre ++ Some "L" :: post) (map rid rs) (map rsos rs) (map reos rs) bf = Ok x /\
    Pad.pad_chunks (fun _ => z) (map (columns (length pre)) (t0 :: l)) nms (map rid rs) (map rsos rs) (map reos rs)
      = Ok (Pad.mkBatch w rows (smeta x)) /\
    nth (if bf then 1%nat else 0%nat) (shp (tn x)) 0 = Z.of_nat w /\
    (forall b row p v s1 n s2 a c, nth_error rows b = Some row -> nth_error row p = Some v ->
       shp t0 = s1 ++ n :: s2 -> length s1 = length pre -> in_range s1 a -> in_range s2 c ->
       at_ (tn x) (lead bf (Z.of_nat b) (Z.of_nat p) ++ a ++ c) = v (a, c)).
Proof. intros V z bf pre post t0 l rs nms. apply pad_columns. Qed.

Definition ex_sees (r : res (@stensor Z)) : res (list Z * list Z * list dname * meta) :=
  do x <- r; Ok (shp (tn x), map (at_ (tn x)) (all_positions (shp (tn x))), names x, smeta x).

Example C80_example :
  ex_sees (pad_full_sequence_t 0 [ex_num 1 [2; 1]; ex_num 2 [2; 3]] [Some "F"; Some "L"] ["a"; "b"] false)
    = Ok ([3; 2; 2], [100; 110; 200; 210; 0; 0; 201; 211; 0; 0; 202; 212], [Some "L"; Some "B"; Some "F"],
          mkMeta ["a"; "b"] [true; true] [true; true] [1; 3] None) /\
  (do x <- pad_full_sequence_t 0 [ex_num 1 [2; 1]; ex_num 2 [2; 3]] [Some "F"; Some "L"] ["a"; "b"] false;
   do ys <- unpad_sequence_t x; mapM (fun y => ex_sees (Ok y)) ys)
    = Ok [([1; 2], [100; 110], [Some "L"; Some "F"], mkMeta ["a"] [true] [true] [1] None);
          ([3; 2], [200; 210; 201; 211; 202; 212], [Some "L"; Some "F"], mkMeta ["b"] [true] [true] [3] None)].
Proof. split; vm_compute; reflexivity. Qed.

Example C80_ready_example : pad_ready [Some "F"] [] (ex_num 1 [2; 1]) [ex_num 2 [2; 3]]
  [mkRow "a" true true 1 0; mkRow "b" true true 3 0].
Proof.
  split; [|split; [|split; [|split; [|split]]]].
  - intros [|[|[|i]]] [|[|[|j]]] s; cbn; intros H1 H2; try reflexivity; try discriminate; try (injection H1 as <-; discriminate H2).
  - intros [H|[]]; discriminate H.
  - reflexivity.
  - apply Forall_cons; [|apply Forall_cons; [|apply Forall_nil]].
    + split; [reflexivity|]. intros d _. reflexivity.
    + split; [reflexivity|]. intros [|[|[|d]]] H; cbn in *; try reflexivity. lia.
  - apply Forall_cons; [|apply Forall_cons; [|apply Forall_nil]]; apply Forall_cons; try lia; apply Forall_cons; try lia; apply Forall_nil.
  - constructor; [reflexivity|]. constructor; [reflexivity|constructor].
Qed.

(** The lengths of the streams are forgotten: taking a padded batch apart with unbind and putting it together again with
    pad_stream_tensor turns padding into data. *)
Theorem C80_lengths_forgotten_refuted : exists (x : @stensor Z) ys y, stream_ok x 0 1 false [mkRow "a" true true 1 0; mkRow "b" true true 3 0] 3 /\
  unbind x 0 = Ok ys /\ pad_stream_tensor_t 0 ys true = Ok y /\ lens (smeta x) = [1; 3] /\ lens (smeta y) = [3; 3].
Proof.
  exists (mkSt (ex_num 7 [2; 3]) [Some "B"; Some "L"] (of_rows false [mkRow "a" true true 1 0; mkRow "b" true true 3 0])). do 2 eexists.
  split; [|split; [vm_compute; reflexivity|]].
  - constructor; try reflexivity.
    + intros [|[|[|i]]] [|[|[|j]]] s; cbn; intros H1 H2; try reflexivity; try discriminate; try (injection H1 as <-; discriminate H2).
    + cbn. constructor; [lia|]. constructor; [lia|constructor].
    + constructor; [cbn; lia|]. constructor; [cbn; lia|constructor].
    + constructor; [cbn; lia|]. constructor; [cbn; lia|constructor].
  - split; [vm_compute; reflexivity|]. split; vm_compute; reflexivity.
Qed.

(** Only the names of the first stream are looked at: a later one with its dimensions in another order is misread, its
    features taken for time steps. *)
Theorem C80_other_order_refuted : exists (x1 x2 y : @stensor Z), names x1 = [Some "F"; Some "L"] /\ names x2 = [Some "L"; Some "F"] /\
  pad_stream_tensor_t 0 [x1; x2] true = Ok y /\ names y = [Some "B"; Some "L"; Some "F"] /\
  at_ (tn x2) [0; 1] <> at_ (tn x2) [1; 0] /\ at_ (tn y) [1; 0; 1] = at_ (tn x2) [1; 0].
Proof.
  exists (mkSt (ex_num 1 [2; 2]) [Some "F"; Some "L"] (of_rows false [mkRow "a" true true 2 0])),
         (mkSt (ex_num 2 [2; 2]) [Some "L"; Some "F"] (of_rows false [mkRow "b" true true 2 0])). eexists.
  split; [reflexivity|]. split; [reflexivity|]. split; [vm_compute; reflexivity|]. split; [vm_compute; reflexivity|].
  split; [vm_compute; discriminate|vm_compute; reflexivity].
Qed.

(* ---- assumptions *)
Print Assumptions C79_stack.
Print Assumptions C79_ones.
Print Assumptions C79_misfit.
Print Assumptions C79_empty.
Print Assumptions C79_no_dimension.
Print Assumptions C79_columns.
Print Assumptions C79_one_channel_refuted.
Print Assumptions C79_negative_dim_refuted.
Print Assumptions C80_pads.
Print Assumptions C80_well_formed.
Print Assumptions C80_unpad.
Print Assumptions C80_pad_then_unpad.
Print Assumptions C80_full.
Print Assumptions C80_rebatch.
Print Assumptions C80_names_refused.
Print Assumptions C80_columns.
Print Assumptions C80_lengths_forgotten_refuted.
Print Assumptions C80_other_order_refuted.

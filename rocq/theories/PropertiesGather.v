(** Theorems of record about gather, take_along_dim, take, scatter_add / scatter_reduce and decouple_recursive. *)

From Coq Require Import String List ZArith Bool Lia.
From Coq Require Import ZifyBool.
From Verif Require NamedGetProofs.
From Verif Require Import Py Meta MetaSpec Named NamedSpec Gather GatherSpec GatherProofs GatherMoreProofs GatherTakeProofs TakeNd TakeNdProofs.
Import ListNotations.
Open Scope string_scope.
Open Scope list_scope.
Open Scope Z_scope.

(** Two streams "a" (3 steps, starting) and "b" (2 steps, ending), 2 features; the value at (b, f, t) is 100 b + 10 f + t. *)
Definition ex_rows : list row := [mkRow "a" true false 3 0; mkRow "b" false true 2 1].
Definition ex_x (c : bool) : @stensor Z :=
  mkSt (mkTn [2; 2; 3] (fun p => 100 * nth 0 p 0 + 10 * nth 1 p 0 + nth 2 p 0)) [Some "B"; Some "F"; Some "L"] (of_rows c ex_rows).
(** The same with the dimensions in the order batch, length, feature. *)
Definition ex_z (c : bool) : @stensor Z :=
  mkSt (mkTn [2; 3; 2] (fun p => 100 * nth 0 p 0 + 10 * nth 2 p 0 + nth 1 p 0)) [Some "B"; Some "L"; Some "F"] (of_rows c ex_rows).
(** To show that a call succeeds with a result of property [P], compute it. *)
Lemma ok_ex {A} (r : res A) (P : A -> Prop) : match r with Ok y => P y | Err _ => False end -> exists y, r = Ok y /\ P y.
Proof. destruct r; [eauto|contradiction]. Qed.
Definition values {V} (t : @tensor V) : list V := map (at_ t) (all_positions (shp t)).

(* ------------------------------------------------------------------ C54 *)

(** torch.gather along a dimension that is neither batch nor length: every value comes from the same stream and the same
    step; the metadata describe the streams and steps within the sizes of the index. *)
Theorem C54_gather : forall (V : Type) (x : @stensor V) bd ld c rs T d k ix b n,
  stream_ok x bd ld c rs T -> denotes (length (shp (tn x))) d k -> k <> bd -> k <> ld -> ix_fits k (shp (tn x)) ix ->
  nth_error (shp ix) bd = Some b -> nth_error (shp ix) ld = Some n -> n = T \/ firstn (Z.to_nat b) rs <> [] ->
  exists y rs', gather x d (mkIx ix false) = Ok y /\ names y = names x /\ gathered k (tn x) ix (tn y) /\
    smeta y = of_rows c rs' /\ Forall2 (cut_row n) (firstn (Z.to_nat b) rs) rs' /\ (n = T -> rs' = firstn (Z.to_nat b) rs).
Proof. intros V x bd ld c rs T d k ix b n. apply gather_ok. Qed.

Example C54_gather_example :
  (exists y, gather (ex_x true) 1 (mkIx (mkTn [1; 3; 2] (fun p => nth 1 p 0 mod 2)) false) = Ok y /\
    values (tn y) = [0; 1; 10; 11; 0; 1] /\ names y = [Some "B"; Some "F"; Some "L"] /\
    smeta y = of_rows true [mkRow "a" true false 2 0])
  /\ (exists y, gather (ex_x false) (-2) (mkIx (mkTn [2; 1; 2] (fun p => nth 2 p 0)) false) = Ok y /\
    values (tn y) = [0; 11; 100; 111] /\ smeta y = of_rows false [mkRow "a" true false 2 0; mkRow "b" false true 2 1]).
Proof. split; apply ok_ex; vm_compute; auto. Qed.

(** torch.take_along_dim with an index that covers all streams and steps: values from the same stream and step,
    unchanged metadata. *)
Theorem C54_take_along_dim : forall (V : Type) (x : @stensor V) bd ld c rs T d k ix,
  stream_ok x bd ld c rs T -> denotes (length (shp (tn x))) d k -> k <> bd -> k <> ld -> ix_broadcasts k (shp (tn x)) ix ->
  nth_error (shp ix) bd = Some (zlen rs) -> nth_error (shp ix) ld = Some T ->
  exists y, take_along_dim x d (mkIx ix false) = Ok y /\ names y = names x /\ gathered_bcast k (tn x) ix (tn y) /\ smeta y = smeta x.
Proof. intros V x bd ld c rs T d k ix. apply take_along_ok. Qed.

Example C54_take_along_dim_example :
  exists y, take_along_dim (ex_x true) 1 (mkIx (mkTn [2; 1; 3] (fun p => (nth 0 p 0 + nth 2 p 0) mod 2)) false) = Ok y /\
    values (tn y) = [0; 11; 2; 110; 101; 112] /\ smeta y = of_rows true ex_rows.
Proof. apply ok_ex. vm_compute. auto. Qed.

(** Along batch or length, counted from either end, there is never a result. *)
Theorem C54_refuses : forall (V : Type) (x : @stensor V) bd ld c rs T d k ix,
  stream_ok x bd ld c rs T -> denotes (length (shp (tn x))) d k -> k = bd \/ k = ld ->
  (exists e, gather x d ix = Err e) /\ (exists e, take_along_dim x d ix = Err e).
Proof. intros V x bd ld c rs T d k ix H Hd Hk. split; eapply gather_with_refuses; eauto. Qed.

Example C54_refuses_example :
  gather (ex_x true) (-1) (mkIx (mkTn [2; 2; 3] (fun p => 0)) false) = Err IndexError /\
  take_along_dim (ex_x true) 0 (mkIx (mkTn [2; 2; 3] (fun p => 0)) false) = Err IndexError.
Proof. split; vm_compute; reflexivity. Qed.

(** An entry outside the dimension is refused. *)
Theorem C54_entries : forall (V : Type) (x : @stensor V) d k ix p n, denotes (length (shp (tn x))) d k -> nth_error (shp (tn x)) k = Some n ->
  in_range (shp ix) p -> ~ 0 <= at_ ix p < n -> gather x d (mkIx ix false) = Err RuntimeError.
Proof. intros V. exact gather_outside. Qed.
Example C54_entries_example : gather (ex_x true) 1 (mkIx (mkTn [1; 1; 2] (fun p => 1 + nth 2 p 0)) false) = Err RuntimeError /\
  gather (ex_x true) 1 (mkIx (mkTn [1; 1; 2] (fun p => - nth 2 p 0)) false) = Err RuntimeError.
Proof. split; vm_compute; reflexivity. Qed.

(** An index with elements whose sizes do not fit is refused: by gather if it has other dimensions or more of them than the
    tensor, by take_along_dim if it cannot be broadcast. *)
Theorem C54_sizes : forall (V : Type) (x : @stensor V) d k ix, denotes (length (shp (tn x))) d k ->
  ((exists p, in_range (shp ix) p) ->
   length (shp ix) <> length (shp (tn x)) \/ (exists e m n, e <> k /\ nth_error (shp ix) e = Some m /\ nth_error (shp (tn x)) e = Some n /\ n < m) ->
   gather x d (mkIx ix false) = Err RuntimeError) /\
  (length (shp ix) <> length (shp (tn x)) \/
   (exists e m n, e <> k /\ nth_error (shp ix) e = Some m /\ nth_error (shp (tn x)) e = Some n /\ m <> n /\ m <> 1 /\ n <> 1) ->
   take_along_dim x d (mkIx ix false) = Err RuntimeError).
Proof.
  intros V x d k ix Hd. split; [intros (p & Hp) H; exact (gather_misfit x d k ix p Hd Hp H)|]. exact (take_along_misfit x d k ix Hd).
Qed.
Example C54_sizes_example : gather (ex_x true) 1 (mkIx (mkTn [3; 1; 1] (fun _ => 0)) false) = Err RuntimeError /\
  gather (ex_x true) 1 (mkIx (mkTn [1; 1] (fun _ => 0)) false) = Err RuntimeError /\
  take_along_dim (ex_x true) 1 (mkIx (mkTn [1; 1; 2] (fun _ => 0)) false) = Err RuntimeError.
Proof. split; [|split]; vm_compute; reflexivity. Qed.

(** The claim "the metadata of a result of take_along_dim describe its data" is false when the index is broadcast: with
    an index that has another batch size, there are always fewer streams in the metadata than rows in the data ... *)
Theorem C54_broadcast_batch_refuted : forall (V : Type) (x : @stensor V) bd ld c rs T d ix y b n,
  stream_ok x bd ld c rs T -> take_along_dim x d (mkIx ix false) = Ok y ->
  nth_error (shp ix) bd = Some b -> nth_error (shp ix) ld = Some n -> 1 <= b -> b <> zlen rs -> 0 <= n -> rs <> [] ->
  exists m, nth_error (shp (tn y)) bd = Some m /\ Z.of_nat (length (ids (smeta y))) < m.
Proof. intros V x bd ld c rs T d ix y b n. apply take_along_batch. Qed.

(** ... and with one that has a single step, all steps are there but every stream is said to have at most one. *)
Theorem C54_broadcast_length_refuted : forall (V : Type) (x : @stensor V) bd ld c rs T d ix y b,
  stream_ok x bd ld c rs T -> take_along_dim x d (mkIx ix false) = Ok y ->
  nth_error (shp ix) bd = Some b -> nth_error (shp ix) ld = Some 1 -> 1 <= b -> rs <> [] ->
  nth_error (shp (tn y)) ld = Some T /\ Forall (fun n => n <= 1) (lens (smeta y)).
Proof. intros V x bd ld c rs T d ix y b. apply take_along_length. Qed.

Example C54_broadcast_refuted_example :
  (exists y, take_along_dim (ex_x true) 1 (mkIx (mkTn [1; 1; 3] (fun p => 1)) false) = Ok y /\
    values (tn y) = [10; 11; 12; 110; 111; 112] /\ smeta y = of_rows true [mkRow "a" true false 3 0])
  /\ (exists y, take_along_dim (ex_x true) 1 (mkIx (mkTn [2; 1; 1] (fun p => 1)) false) = Ok y /\
    values (tn y) = [10; 11; 12; 110; 111; 112] /\ smeta y = of_rows true [mkRow "a" true false 1 0; mkRow "b" false false 1 1]).
Proof. split; apply ok_ex; vm_compute; auto. Qed.

(** A StreamTensor as index always fails, whatever the tensor. *)
Theorem C54_stream_index_refuted : forall (V : Type) (x : @stensor V) d ix,
  gather x d (mkIx ix true) = Err AttributeError /\ take_along_dim x d (mkIx ix true) = Err AttributeError.
Proof. intros. split; reflexivity. Qed.

(** A gather that keeps no stream and cuts the length fails although torch gives an empty tensor. *)
Theorem C54_no_stream_refuted : forall (V : Type) (x : @stensor V) bd ld c rs T d k ix n,
  stream_ok x bd ld c rs T -> denotes (length (shp (tn x))) d k -> k <> bd -> k <> ld -> ix_fits k (shp (tn x)) ix ->
  nth_error (shp ix) bd = Some 0 -> nth_error (shp ix) ld = Some n -> n <> T ->
  exists e, gather x d (mkIx ix false) = Err e.
Proof.
  intros V x bd ld c rs T d k ix n H Hd Hb Hl Hi Eb En Hn.
  destruct (torch_gather_ok (tn x) k ix) as (t' & Et & Gt); [apply Hd|exact (so_sizes _ _ _ _ _ _ H)|exact Hi|].
  apply (gather_with_none torch_gather x bd ld c rs T d k ix 0 n t'); auto; try lia.
  rewrite (proj1 Gt). apply (if_rank _ _ _ Hi).
Qed.

Example C54_no_stream_example :
  gather (ex_x true) 1 (mkIx (mkTn [0; 2; 2] (fun p => 0)) false) = Err RuntimeError /\
  (exists t, torch_gather (tn (ex_x true)) 1 (mkTn [0; 2; 2] (fun p => 0)) = Ok t /\ shp t = [0; 2; 2]).
Proof. split; [vm_compute; reflexivity|]. eexists. split; vm_compute; reflexivity. Qed.

(* ------------------------------------------------------------------ C55 *)

(** torch.take: the values are the elements asked for, and the metadata name exactly the streams they come from, each
    once.  Missing, since false (below): the names, lengths and flags. *)
Theorem C55_take_partial : forall (V : Type) (x : @stensor V) bd ld c rs T l y,
  stream_ok x bd ld c rs T -> take x l = Ok y ->
  shp (tn y) = [zlen l] /\
  (forall j i, nth_error l j = Some i -> exists p, element (shp (tn x)) i p /\ at_ (tn y) [Z.of_nat j] = at_ (tn x) p) /\
  exists bs, NoDup bs /\ (forall b, In b bs <-> exists i p, In i l /\ element (shp (tn x)) i p /\ nth bd p 0 = b) /\
    ids (smeta y) = map rid (at_positions rs bs).
Proof. intros V x bd ld c rs T l y. apply take_ids. Qed.

Example C55_take_example :
  (exists y, take (ex_z true) [6; 8; 9] = Ok y /\ values (tn y) = [100; 101; 111] /\
     names y = [Some "L_F"] /\ smeta y = of_rows true [mkRow "b" false false 2 1])
  /\ (exists y, take (ex_z true) [6; 0] = Ok y /\ values (tn y) = [100; 0] /\ ids (smeta y) = ["a"; "b"]).
Proof. split; apply ok_ex; vm_compute; auto. Qed.

(** The lengths do not describe the elements taken: one element of each of two streams, but two steps each. *)
Theorem C55_lengths_refuted : exists (x : @stensor Z) l y,
  take x l = Ok y /\ zlen l = 2 /\ ids (smeta y) = ["a"; "b"] /\ lens (smeta y) = [2; 2].
Proof.
  exists (mkSt (mkTn [2; 2] (fun p => 10 * nth 0 p 0 + nth 1 p 0)) [Some "B"; Some "L"]
            (of_rows false [mkRow "a" true false 2 0; mkRow "b" true false 2 0])), [0; 3].
  apply ok_ex. vm_compute. auto.
Qed.

(** Elements of a single step of a single stream: with the length as last dimension there is never a result ... *)
Theorem C55_one_step_refuted : forall (V : Type) (x : @stensor V) bd ld c rs T l b s,
  stream_ok x bd ld c rs T -> (bd < ld)%nat -> S ld = length (shp (tn x)) -> l <> [] ->
  Forall (fun i => exists p, element (shp (tn x)) i p /\ nth bd p 0 = b /\ nth ld p 0 = s) l ->
  take x l = Err IndexError.
Proof. intros V x bd ld c rs T l b s. apply take_one_step. Qed.

(** ... and with the length in the middle the name that is dropped is not that of the length. *)
Theorem C55_one_step_name_refuted : exists (x : @stensor Z) l y,
  names x = [Some "B"; Some "L"; Some "F"] /\ take x l = Ok y /\ values (tn y) = [2; 12] /\ names y = [Some "L"].
Proof. exists (ex_z true), [4; 5]. 
  assert (E : exists y, take (ex_z true) [4; 5] = Ok y /\ values (tn y) = [2; 12] /\ names y = [Some "L"]) by (apply ok_ex; vm_compute; auto).
  destruct E as (y & E). exists y. split; [reflexivity|exact E].
Qed.

Example C55_one_step_example : take (ex_x true) [1; 4] = Err IndexError.
Proof. vm_compute; reflexivity. Qed.

(** A tensor without batch or without length dimension: never a result. *)
Theorem C55_missing_dimension_refuted : forall (V : Type) (x : @stensor V) l y,
  ~ In (Some "B") (names x) \/ ~ In (Some "L") (names x) -> take x l <> Ok y.
Proof. intros V x l y. apply take_missing. Qed.

Example C55_missing_dimension_example :
  take (mkSt (mkTn [2; 2] (fun p => 10 * nth 0 p 0 + nth 1 p 0)) [Some "B"; Some "F"] (of_rows false ex_rows)) [0; 1] = Err UnboundLocalError.
Proof. vm_compute; reflexivity. Qed.

(** An index tensor of any rank but one never gives a result, though torch.take accepts it: TypeError if it has elements
    and they are in range. *)
Theorem C55_other_ranks_refuted : forall (V : Type) (x : @stensor V) s l, length s <> 1%nat ->
  (forall y, take_nd x s l <> Ok y) /\
  (~ In 0 s -> shp (tn x) <> [] -> Forall (fun n => 0 <= n) s -> Forall (fun i => 0 <= i < zprod (shp (tn x))) l ->
    (exists t, torch_take (tn x) l = Ok t) /\ take_nd x s l = Err TypeError).
Proof.
  intros V x s l H. split; [intros y; now apply take_nd_never|]. intros H0 Hx Hs Hl. split; [|now apply take_nd_type_error].
  unfold torch_take. rewrite (proj2 (forallb_forall _ _)); [eexists; reflexivity|]. intros i Hi.
  rewrite Forall_forall in Hl. specialize (Hl i Hi). lia.
Qed.

(** Negative indices, which torch.take counts from the end, are always refused. *)
Theorem C55_negative_refuted : forall (V : Type) (x : @stensor V) l,
  Forall (fun i => - zprod (shp (tn x)) <= i < zprod (shp (tn x))) l -> Exists (fun i => i < 0) l ->
  (exists t, torch_take (tn x) l = Ok t) /\ take x l = Err ValueError.
Proof.
  intros V x l Hl Hn. split; [|now apply take_negative].
  unfold torch_take. rewrite (proj2 (forallb_forall _ _)); [eexists; reflexivity|]. intros i Hi.
  rewrite Forall_forall in Hl. specialize (Hl i Hi). lia.
Qed.

Example C55_ranks_example :
  take_nd (ex_x true) [2; 2] [0; 1; 6; 7] = Err TypeError /\ take_nd (ex_x true) [] [5] = Err TypeError /\
  take_nd (ex_x true) [0; 2] [] = Err RuntimeError /\ take (ex_x true) [0; -1] = Err ValueError /\
  match take_nd (ex_x true) [4] [0; 1; 6; 7] with Ok y => values (tn y) = [0; 1; 100; 101] | Err _ => False end.
Proof. vm_compute. auto. Qed.

(* ------------------------------------------------------------------ C56 *)

(** scatter_add and scatter_reduce along another dimension: names and metadata of the input; every value combines the old
    one with the elements arriving there. *)
Theorem C56_scatter : forall (V : Type) (red : V -> list V -> V) inplace (x : @stensor V) bd ld rs T d k ix ixi src,
  stream_ok x bd ld false rs T -> denotes (length (shp (tn x))) d k -> k <> bd -> k <> ld ->
  ix_fits k (shp (tn x)) ix -> within (shp ix) (shp (op_tensor src)) ->
  (forall n m, ixi = Some (n, m) -> m = smeta x) -> (forall z, src = OStream z -> smeta z = smeta x) ->
  exists y, scatter red inplace (OStream x) d ix ixi (SrcTensor src) = Ok (OStream y) /\
    names y = names x /\ smeta y = smeta x /\ scattered red k (tn x) ix (op_tensor src) (tn y).
Proof.
  intros V red inplace x bd ld rs T d k ix ixi src H Hd Hb Hl Hi Hw I1 I2.
  apply (scatter_keeps x bd ld rs T red inplace d k ix ixi src); auto.
  - destruct ixi as [[n m]|]; cbn; eauto.
  - destruct src as [z|z]; cbn; auto.
Qed.

(** What arrives at a position comes from the same position along all other dimensions: no stream and no step is mixed
    with another one. *)
Theorem C56_no_mixing : forall k (ix : @tensor Z) p q, (k < length (shp ix))%nat -> arrives k ix p q -> agree_but k p q.
Proof. exact arrives_agree. Qed.

(** Along batch or length, counted from the front, the result is a plain tensor. *)
Theorem C56_falls_back : forall (V : Type) (red : V -> list V -> V) inplace (x : @stensor V) bd ld c rs T (k : nat) ix ixi src,
  stream_ok x bd ld c rs T -> k = bd \/ k = ld -> ix_fits k (shp (tn x)) ix -> within (shp ix) (shp (op_tensor src)) ->
  exists t', scatter red inplace (OStream x) (Z.of_nat k) ix ixi (SrcTensor src) = Ok (OPlain t') /\
    scattered red k (tn x) ix (op_tensor src) t'.
Proof. intros V red inplace x bd ld c rs T k ix ixi src. apply scatter_falls_back. Qed.

(** An entry outside the dimension is refused. *)
Theorem C56_entries : forall (V : Type) (red : V -> list V -> V) inplace (o : @operand V) d k ix ixi src p n,
  denotes (length (shp (op_tensor o))) d k -> nth_error (shp (op_tensor o)) k = Some n -> in_range (shp ix) p -> ~ 0 <= at_ ix p < n ->
  scatter red inplace o d ix ixi (SrcTensor src) = Err RuntimeError.
Proof. intros V. exact scatter_outside. Qed.
Example C56_entries_example : forall red,
  scatter red false (OStream (ex_x false)) 1 (mkTn [1; 1; 2] (fun p => 1 + nth 2 p 0)) None (SrcTensor (OPlain (mkTn [2; 2; 3] (fun p => 0)))) = Err RuntimeError.
Proof. intros red. vm_compute. reflexivity. Qed.

(** ... and so is one that is larger than the tensor in another dimension, or than the source in any. *)
Theorem C56_sizes : forall (V : Type) (red : V -> list V -> V) inplace (o : @operand V) d k ix ixi src p,
  denotes (length (shp (op_tensor o))) d k -> in_range (shp ix) p ->
  (length (shp ix) <> length (shp (op_tensor o)) \/
   exists e m n, e <> k /\ nth_error (shp ix) e = Some m /\ nth_error (shp (op_tensor o)) e = Some n /\ n < m) \/
  (length (shp ix) <> length (shp (op_tensor src)) \/
   exists e m n, nth_error (shp ix) e = Some m /\ nth_error (shp (op_tensor src)) e = Some n /\ n < m) ->
  scatter red inplace o d ix ixi (SrcTensor src) = Err RuntimeError.
Proof. intros V. exact scatter_misfit. Qed.
(** At least one of the arguments must be a StreamTensor. *)
Theorem C56_no_stream : forall (V : Type) (red : V -> list V -> V) inplace (t : @tensor V) d ix src o,
  scatter red inplace (OPlain t) d ix None (SrcTensor (OPlain src)) <> Ok o /\
  (forall k, denotes (length (shp t)) d k -> ix_fits k (shp t) ix -> within (shp ix) (shp src) -> Forall (fun n => 0 <= n) (shp t) ->
     scatter red inplace (OPlain t) d ix None (SrcTensor (OPlain src)) = Err IndexError).
Proof.
  intros V red inplace t d ix src o. unfold scatter. split.
  - destruct (norm_dim _ _) as [k|]; [|discriminate]. cbn [bind op_tensor].
    destruct (torch_scatter red t k ix src) as [t'|]; [|discriminate]. cbn [bind]. destruct inplace; discriminate.
  - intros k Hd Hf Hw Hn. assert (E : norm_dim (ndim t) d = Ok k) by (apply NamedGetProofs.norm_dim_denotes; exact Hd). cbn [op_tensor]. rewrite E. cbn [bind].
    destruct (torch_scatter_ok red t k ix src (proj1 Hd) Hn Hf Hw) as (t' & -> & _). cbn [bind]. destruct inplace; reflexivity.
Qed.
Example C56_sizes_example : forall red,
  scatter red false (OStream (ex_x false)) 1 (mkTn [1; 1; 2] (fun _ => 0)) None (SrcTensor (OPlain (mkTn [2; 2; 1] (fun p => 0)))) = Err RuntimeError /\
  scatter red false (OStream (ex_x false)) 1 (mkTn [3; 1; 2] (fun _ => 0)) None (SrcTensor (OPlain (mkTn [3; 2; 3] (fun p => 0)))) = Err RuntimeError /\
  scatter red false (OPlain (tn (ex_x false))) 1 (mkTn [1; 1; 2] (fun _ => 0)) None (SrcTensor (OPlain (mkTn [2; 2; 3] (fun p => 0)))) = Err IndexError.
Proof. intros red. split; [|split]; vm_compute; reflexivity. Qed.

Definition add_all (v : Z) (l : list Z) : Z := fold_left Z.add l v.

Example C56_scatter_example :
  (exists y, scatter add_all false (OStream (ex_x false)) 1 (mkTn [2; 2; 2] (fun p => nth 0 p 0)) None
               (SrcTensor (OPlain (mkTn [2; 2; 3] (fun p => 1000 * (1 + nth 1 p 0))))) = Ok (OStream y) /\
     values (tn y) = [3000; 3001; 2; 10; 11; 12; 100; 101; 102; 3110; 3111; 112] /\ smeta y = of_rows false ex_rows)
  /\ (exists t, scatter add_all true (OStream (ex_x false)) 2 (mkTn [1; 1; 3] (fun p => 1)) None
               (SrcTensor (OPlain (mkTn [1; 1; 3] (fun p => 1000)))) = Ok (OPlain t) /\
     values t = [0; 3001; 2; 10; 11; 12; 100; 101; 102; 110; 111; 112]).
Proof. split; eexists; (split; [vm_compute; reflexivity|]); vm_compute; try split; reflexivity. Qed.

(** The claim "never a StreamTensor when streams or steps may be mixed" is false: counted from the end, batch and length
    are not recognised and the mixed values keep the metadata. *)
Theorem C56_negative_refuted : forall (V : Type) (red : V -> list V -> V) inplace (x : @stensor V) bd ld rs T d k ix src,
  stream_ok x bd ld false rs T -> denotes (length (shp (tn x))) d k -> k = bd \/ k = ld -> d < 0 ->
  ix_fits k (shp (tn x)) ix -> within (shp ix) (shp src) ->
  exists y, scatter red inplace (OStream x) d ix None (SrcTensor (OPlain src)) = Ok (OStream y) /\
    smeta y = smeta x /\ scattered red k (tn x) ix src (tn y).
Proof.
  intros V red inplace x bd ld rs T d k ix src H Hd Hk Hneg Hi Hw.
  destruct (scatter_keeps x bd ld rs T red inplace d k ix None (OPlain src)) as (y & E & _ & M & S); auto; [exact I|exact I|].
  exists y. auto.
Qed.

Example C56_negative_example :
  exists y, scatter add_all false (OStream (ex_x false)) (-3) (mkTn [2; 1; 1] (fun p => 0)) None
               (SrcTensor (OStream (ex_x false))) = Ok (OStream y) /\
     values (tn y) = [100; 1; 2; 10; 11; 12; 100; 101; 102; 110; 111; 112] /\ smeta y = of_rows false ex_rows.
Proof. eexists. split; [vm_compute; reflexivity|]. split; vm_compute; reflexivity. Qed.

(** With chunk indices (unless they happen to be the lengths) the result is never a StreamTensor. *)
Theorem C56_chunks_refuted : forall (V : Type) (red : V -> list V -> V) inplace (x : @stensor V) bd ld rs T d ix ixi src y,
  stream_ok x bd ld true rs T -> map rch rs <> map rlen rs ->
  scatter red inplace (OStream x) d ix ixi (SrcTensor src) <> Ok (OStream y).
Proof. intros V red inplace x bd ld rs T d ix ixi src y. apply scatter_chunks. Qed.

(** The claim "different metadata: a plain tensor" is false without chunk indices: the call fails. *)
Theorem C56_different_refuted : forall (V : Type) (red : V -> list V -> V) inplace (x : @stensor V) bd ld rs T d k ix (z : @stensor V),
  stream_ok x bd ld false rs T -> denotes (length (shp (tn x))) d k -> k <> bd -> k <> ld ->
  ix_fits k (shp (tn x)) ix -> within (shp ix) (shp (tn z)) -> chs (smeta z) = None -> smeta z <> smeta x ->
  scatter red inplace (OStream x) d ix None (SrcTensor (OStream z)) = Err AttributeError.
Proof. intros V red inplace x bd ld rs T d k ix z. apply scatter_differs. Qed.

(** A plain input of other sizes takes on the metadata of src, which then do not describe it. *)
Theorem C56_plain_input_refuted : forall (V : Type) (red : V -> list V -> V) inplace (t : @tensor V) (x : @stensor V) bd ld rs T d k ix,
  stream_ok x bd ld false rs T -> length (shp t) = length (shp (tn x)) -> Forall (fun n => 0 <= n) (shp t) ->
  denotes (length (shp t)) d k -> k <> bd -> k <> ld -> ix_fits k (shp t) ix -> within (shp ix) (shp (tn x)) ->
  exists y, scatter red inplace (OPlain t) d ix None (SrcTensor (OStream x)) = Ok (OStream y) /\
    shp (tn y) = shp t /\ names y = names x /\ smeta y = smeta x.
Proof. intros V red inplace t x bd ld rs T d k ix. apply scatter_plain_input. Qed.

Example C56_refuted_examples :
  (exists t, scatter add_all false (OStream (ex_x true)) 1 (mkTn [1; 1; 1] (fun p => 0)) None
               (SrcTensor (OPlain (mkTn [1; 1; 1] (fun p => 1000)))) = Ok (OPlain t))
  /\ scatter add_all false (OStream (ex_x false)) 1 (mkTn [1; 1; 1] (fun p => 0)) None
       (SrcTensor (OStream (mkSt (mkTn [1; 1; 1] (fun p => 7)) [Some "B"; Some "F"; Some "L"] (of_rows false [mkRow "q" true true 1 0])))) = Err AttributeError
  /\ (exists y, scatter add_all false (OPlain (mkTn [5; 2; 3] (fun p => 0))) 1 (mkTn [2; 1; 1] (fun p => 0)) None
               (SrcTensor (OStream (ex_x false))) = Ok (OStream y) /\ shp (tn y) = [5; 2; 3] /\ ids (smeta y) = ["a"; "b"])
  /\ scatter add_all false (OStream (ex_x false)) 1 (mkTn [1; 1; 1] (fun p => 0)) None SrcNumber = Err TypeError.
Proof.
  split; [eexists; vm_compute; reflexivity|]. split; [vm_compute; reflexivity|].
  split; [eexists; split; [vm_compute; reflexivity|]; split; vm_compute; reflexivity|]. vm_compute; reflexivity.
Qed.

(* ------------------------------------------------------------------ C57 *)

(** decouple_recursive replaces every StreamTensor in nested arguments by its data, leaves everything else as it is, and
    collects metadata and names of exactly the StreamTensors that were there, from left to right. *)
Theorem C57_decouple : forall (T : Type) (v : value T),
  stripped v (fst (decouple_recursive v)) /\ found v (snd (decouple_recursive v)).
Proof. exact @decouple_stripped. Qed.

Theorem C57_nothing_left : forall (T : Type) (v : value T) m n, ~ occurs (fst (decouple_recursive v)) m n.
Proof. intros T v m n. exact (stripped_none v _ m n (proj1 (decouple_stripped v))). Qed.

Theorem C57_nothing_missed : forall (T : Type) (v : value T) m n, In (m, n) (snd (decouple_recursive v)) <-> occurs v m n.
Proof. intros T v. exact (found_occurs v _ (proj2 (decouple_stripped v))). Qed.

Example C57_example :
  let m1 := of_rows false [mkRow "a" true false 3 0] in
  let m2 := of_rows false [mkRow "b" false true 2 0] in
  decouple_recursive
    (VSeq true [VStream 1 m1 [Some "L"]; VStr "sum"; VMap [(VStr "out", VSeq false [VTensor 2; VStream 3 m2 []])]; VOther 4])
  = (VSeq true [VTensor 1; VStr "sum"; VMap [(VStr "out", VSeq false [VTensor 2; VTensor 3])]; VOther 4],
     [(m1, [Some "L"]); (m2, [])]).
Proof. vm_compute; reflexivity. Qed.

(* ---- assumptions *)
Print Assumptions C54_gather.
Print Assumptions C54_take_along_dim.
Print Assumptions C54_refuses.
Print Assumptions C54_entries.
Print Assumptions C54_sizes.
Print Assumptions C54_broadcast_batch_refuted.
Print Assumptions C54_broadcast_length_refuted.
Print Assumptions C54_stream_index_refuted.
Print Assumptions C54_no_stream_refuted.
Print Assumptions C55_take_partial.
Print Assumptions C55_lengths_refuted.
Print Assumptions C55_one_step_refuted.
Print Assumptions C55_one_step_name_refuted.
Print Assumptions C55_missing_dimension_refuted.
Print Assumptions C55_other_ranks_refuted.
Print Assumptions C55_negative_refuted.
Print Assumptions C56_scatter.
Print Assumptions C56_no_mixing.
Print Assumptions C56_falls_back.
Print Assumptions C56_entries.
Print Assumptions C56_sizes.
Print Assumptions C56_no_stream.
Print Assumptions C56_negative_refuted.
Print Assumptions C56_chunks_refuted.
Print Assumptions C56_different_refuted.
Print Assumptions C56_plain_input_refuted.
Print Assumptions C57_decouple.
Print Assumptions C57_nothing_left.
Print Assumptions C57_nothing_missed.

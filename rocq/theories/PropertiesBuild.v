(** Theorems of record: making stream tensors and taking them apart (C69). *)

From Coq Require Import String List ZArith Bool Lia Sorted.
From Verif Require Import Py Meta MetaSpec Named NamedSpec NamedIndexProofs Gather GatherSpec Dispatch Build BuildSpec ReduceSpec ConvMoreProofs BuildProofs.
Import ListNotations.
Open Scope string_scope.
Open Scope list_scope.
Open Scope Z_scope.

(** A stream tensor that is taken apart, with or without names on the data, and put together again is the same. *)
Theorem C69_round_trip : forall (V : Type) keep (x : @stensor V) t n m nms, well_named (length (shp (tn x))) (names x) ->
  st_decouple keep x = (t, n, m, nms) ->
  as_stream_tensor (BTensor t n) (Some m) (Some nms) = Ok x /\ stream_tensor (BTensor t n) m nms = Ok x.
Proof.
  intros V keep x t n m nms W E. pose proof (round_trip keep x W) as R. rewrite E in R. exact R.
Qed.

(** What is taken apart: the data, unnamed on request, the metadata and the names. *)
Theorem C69_parts : forall (V : Type) keep (x : @stensor V) t n m nms, st_decouple keep x = (t, n, m, nms) ->
  t = tn x /\ m = smeta x /\ nms = names x /\ (keep = true -> n = names x) /\
  (keep = false -> length n = length (shp (tn x)) /\ Forall (fun a => a = None) n).
Proof.
  intros V keep x t n m nms E. unfold st_decouple, plain_of in E. injection E as <- <- <- <-.
  split; [reflexivity|]. split; [reflexivity|]. split; [reflexivity|]. split; intros ->; [reflexivity|].
  split; [apply repeat_length|]. apply Forall_forall. intros a I. now apply repeat_spec in I.
Qed.

(** as_stream_tensor accepts exactly names that extend those of the data, none twice, and takes the metadata given, or those of a
    stream tensor. *)
Theorem C69_accepts : forall (V : Type) (d : @bdata V) m nms y,
  as_stream_tensor d m nms = Ok y <->
  tn y = data_of d /\
  match nms with None => names y = names_of d | Some l => names y = l /\ more_names (names_of d) l /\ names_distinct l end /\
  match m with Some m' => smeta y = m' | None => exists x, d = BStream x /\ smeta y = smeta x end.
Proof. intros V. exact as_stream_tensor_iff. Qed.

(** stream_tensor accepts exactly names that fit the data, none twice, or a single None. *)
Theorem C69_stream_tensor_accepts : forall (V : Type) (d : @bdata V) m nms y,
  stream_tensor d m nms = Ok y <->
  tn y = data_of d /\ smeta y = m /\
  (well_named (length (shp (data_of d))) nms /\ names y = nms \/ nms = [None] /\ names y = repeat None (length (shp (data_of d)))).
Proof. intros V. exact stream_tensor_iff. Qed.

(** Data with a batch and a length dimension and metadata that fit make a proper stream tensor. *)
Theorem C69_fits_partial : forall (V : Type) (t : @tensor V) nms bd ld c rs T,
  well_named (length (shp t)) nms -> Forall (fun n => 0 <= n) (shp t) ->
  nth_error nms bd = Some (Some "B") -> nth_error nms ld = Some (Some "L") ->
  nth_error (shp t) bd = Some (zlen rs) -> nth_error (shp t) ld = Some T -> nonneg rs -> Forall (fun r => rlen r <= T) rs ->
  exists y, as_stream_tensor (BNested t) (Some (of_rows c rs)) (Some nms) = Ok y /\
    stream_tensor (BNested t) (of_rows c rs) nms = Ok y /\ tn y = t /\ names y = nms /\ stream_ok y bd ld c rs T.
Proof.
  intros V t nms bd ld c rs T [W1 W2] S B L BS LS N F. exists (mkSt t nms (of_rows c rs)). split; [|split].
  - apply as_stream_tensor_iff. cbn [data_of names_of tn names smeta]. split; [reflexivity|]. split; [|reflexivity].
    split; [reflexivity|]. split; [now apply more_from_none|exact W2].
  - unfold stream_tensor, ndim. cbn [data_of]. rewrite (refine_well _ _ (conj W1 W2)). reflexivity.
  - split; [reflexivity|]. split; [reflexivity|]. constructor; cbn [tn names smeta]; auto.
Qed.

(** Refuted: metadata are not compared with the data. Whatever the number of streams and their lengths, they are accepted. *)
Theorem C69_unchecked_refuted : forall (V : Type) (t : @tensor V) nms bd c rs, well_named (length (shp t)) nms ->
  nth_error nms bd = Some (Some "B") -> nth_error (shp t) bd <> Some (zlen rs) ->
  exists y, as_stream_tensor (BNested t) (Some (of_rows c rs)) (Some nms) = Ok y /\
    stream_tensor (BNested t) (of_rows c rs) nms = Ok y /\ not_stream y.
Proof.
  intros V t nms bd c rs [W1 W2] B BS. exists (mkSt t nms (of_rows c rs)). split; [|split].
  - apply as_stream_tensor_iff. cbn [data_of names_of tn names smeta]. split; [reflexivity|]. split; [|reflexivity].
    split; [reflexivity|]. split; [now apply more_from_none|exact W2].
  - unfold stream_tensor, ndim. cbn [data_of]. rewrite (refine_well _ _ (conj W1 W2)). reflexivity.
  - intros bd' ld' c' rs' T' SO. apply BS. assert (bd' = bd) by (eapply W2; [apply (so_bname _ _ _ _ _ _ SO)|exact B]). subst bd'.
    pose proof (so_bsize _ _ _ _ _ _ SO) as S. cbn [tn] in S. rewrite S. f_equal.
    pose proof (so_meta _ _ _ _ _ _ SO) as M. cbn [smeta] in M. apply ReduceProofs.rows_lens in M. apply (f_equal (@length Z)) in M.
    rewrite !map_length in M. unfold zlen. lia.
Qed.

(** Refuted: stream_tensor with names=(None,) accepts data of every rank and names no dimension. *)
Theorem C69_single_none_refuted : forall (V : Type) (t : @tensor V) m,
  stream_tensor (BNested t) m [None] = Ok (mkSt t (repeat None (length (shp t))) m).
Proof.
  intros V t m. unfold stream_tensor, refine_names, torch_rename, ndim. cbn [data_of].
  destruct (shp t) as [|a [|b s]]; reflexivity.
Qed.

(** frexp: mantissa and exponent are stream tensors like their input. *)
Theorem C69_frexp : forall (V : Type) (man ex : V -> V) x bd ld c rs T, stream_ok x bd ld c rs T ->
  exists y z, frexp man ex x = Ok (y, z) /\ stream_ok y bd ld c rs T /\ stream_ok z bd ld c rs T /\
    names y = names x /\ names z = names x /\ each man (tn x) (tn y) /\ each ex (tn x) (tn z).
Proof. intros V. exact frexp_ok. Qed.

(** Quantising stream tensors is quantising their data. *)
Theorem C69_quantize_partial : forall (V : Type) (q : list (@tensor V) -> res (@rout V)) xs r, q (map tn xs) = Ok r ->
  quantize q (QMany (map OStream xs)) = Ok (as_plain r) /\ (forall x, xs = [x] -> quantize q (QOne x) = Ok (as_plain r)).
Proof.
  intros V q xs r E. split.
  - unfold quantize. assert (M : mapM (fun o : @operand V => match o with OStream x => Ok (tn x) | OPlain _ => Err AttributeError end) (map OStream xs)
      = Ok (map tn xs)).
    { clear E. induction xs as [|x xs IH]; [reflexivity|]. cbn [map]. rewrite MetaProofs.mapM_cons. cbn [bind]. now rewrite IH. }
    rewrite M. cbn [bind]. rewrite E. reflexivity.
  - intros x ->. unfold quantize. cbn [bind map] in *. rewrite E. reflexivity.
Qed.

(** Refuted: a tuple of stream tensors and plain tensors cannot be quantised. *)
Theorem C69_quantize_mixed_refuted : forall (V : Type) (q : list (@tensor V) -> res (@rout V)) l t, In (OPlain t) l ->
  quantize q (QMany l) = Err AttributeError.
Proof.
  intros V q l t I. unfold quantize. replace (mapM _ l) with (@Err (list (@tensor V)) AttributeError); [reflexivity|].
  symmetry. induction l as [|o l IH]; [destruct I|]. rewrite MetaProofs.mapM_cons. destruct o as [x|u]; [|reflexivity].
  destruct I as [I|I]; [discriminate|]. cbn [bind]. now rewrite IH.
Qed.

(** masked_select with a plain mask: the values at the positions where the mask is set, in row-major order of the broadcast shape. *)
Theorem C69_masked_select_partial : forall (V : Type) (x : @stensor V) (m : @tensor bool) s, broadcasts (shp (tn x)) (shp m) s ->
  exists qs, masked_select (OStream x) m false = Ok (map (seen (tn x)) qs) /\ StronglySorted (before s) qs /\
    (forall q, In q qs <-> in_range s q /\ seen m q = true).
Proof. intros V x m s. apply masked_ok. Qed.

(** ... and refused when the shapes do not fit. *)
Theorem C69_masked_select_refuses : forall (V : Type) (x : @stensor V) (m : @tensor bool), (forall s, ~ broadcasts (shp (tn x)) (shp m) s) ->
  exists e, masked_select (OStream x) m false = Err e.
Proof. intros V x m. apply masked_fails. Qed.

(** Refuted: a stream tensor as mask, such as x > 0, always fails. *)
Theorem C69_masked_select_refuted : forall (V : Type) (x : @operand V) (m : @tensor bool), masked_select x m true = Err AttributeError.
Proof. intros V [x|t] m; reflexivity. Qed.

(** Refuted: the method x.masked_select, unlike torch.masked_select, returns a stream tensor with the metadata of all streams. *)
Theorem C69_method_refuted : forall (V : Type) (x : @stensor V) bd ld c rs T (m : @tensor bool) s,
  stream_ok x bd ld c rs T -> broadcasts (shp (tn x)) (shp m) s ->
  exists y, method_masked_select x m = Ok (DStream y) /\ smeta y = smeta x /\ not_stream y.
Proof. intros V. exact method_masked. Qed.

(* ---- examples *)

Definition ex_rows : list row := [mkRow "a" true false 3 0; mkRow "b" true true 1 0].
Definition ex_data : @tensor Z := mkTn [2; 3] (fun ix => 10 * nth 0 ix 0 + nth 1 ix 0).
Definition ex_x : @stensor Z := mkSt ex_data [Some "B"; Some "L"] (of_rows false ex_rows).
Definition ex_mask : @tensor bool := mkTn [3] (fun ix => negb (hd 0 ix =? 1)).

Example C69_ex_build :
  match as_stream_tensor (BTensor ex_data [None; Some "L"]) (Some (of_rows false ex_rows)) (Some [Some "B"; Some "L"]) with
  | Ok y => (names y, shp (tn y), at_ (tn y) [1; 2], smeta y) = ([Some "B"; Some "L"], [2; 3], 12, of_rows false ex_rows)
  | _ => False
  end.
Proof. vm_compute. reflexivity. Qed.

(** A dimension named differently, a name used twice, no metadata. *)
Example C69_ex_refused :
  as_stream_tensor (BTensor ex_data [Some "F"; None]) (Some (of_rows false ex_rows)) (Some [Some "B"; Some "L"]) = Err RuntimeError /\
  as_stream_tensor (BNested ex_data) (Some (of_rows false ex_rows)) (Some [Some "B"; Some "B"]) = Err RuntimeError /\
  as_stream_tensor (BNested ex_data) None (Some [Some "B"; Some "L"]) = Err AttributeError /\
  stream_tensor (BNested ex_data) (of_rows false ex_rows) [Some "B"] = Err RuntimeError.
Proof. vm_compute. split; [reflexivity|]. split; [reflexivity|]. split; reflexivity. Qed.

(** Four streams for two rows. *)
Example C69_ex_unchecked :
  match stream_tensor (BNested ex_data) (of_rows false (ex_rows ++ ex_rows)) [Some "B"; Some "L"] with
  | Ok y => (shp (tn y), length (ids (smeta y))) = ([2; 3], 4%nat)
  | _ => False
  end.
Proof. vm_compute. reflexivity. Qed.

Example C69_ex_masked : masked_select (OStream ex_x) ex_mask false = Ok [0; 2; 10; 12] /\
  broadcasts (shp (tn ex_x)) (shp ex_mask) [2; 3].
Proof.
  split; [vm_compute; reflexivity|]. unfold broadcasts. simpl. constructor; [apply BC_same|]. apply BR_right.
Qed.

Example C69_ex_frexp :
  match frexp (fun v => v mod 10) (fun v => v / 10) ex_x with
  | Ok (y, z) => (names y, at_ (tn y) [1; 2], at_ (tn z) [1; 2], smeta z) = ([Some "B"; Some "L"], 2, 1, smeta ex_x)
  | _ => False
  end.
Proof. vm_compute. reflexivity. Qed.

(* ---- assumptions *)
Print Assumptions C69_round_trip.
Print Assumptions C69_parts.
Print Assumptions C69_accepts.
Print Assumptions C69_stream_tensor_accepts.
Print Assumptions C69_fits_partial.
Print Assumptions C69_unchecked_refuted.
Print Assumptions C69_single_none_refuted.
Print Assumptions C69_frexp.
Print Assumptions C69_quantize_partial.
Print Assumptions C69_quantize_mixed_refuted.
Print Assumptions C69_masked_select_partial.
Print Assumptions C69_masked_select_refuses.
Print Assumptions C69_masked_select_refuted.
Print Assumptions C69_method_refuted.

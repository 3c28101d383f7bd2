(** Theorems of record: functions without a rule of their own (C68).

    [call_along f x r] is torch.f(x, r) for a function that computes along a dimension, [call_reduce op x dims keepdim] for one
    that computes one value over dimensions.  Both go through the default rule, which keeps the metadata. *)

From Coq Require Import String List ZArith Bool Lia QArith.
From Verif Require Import Py Meta MetaSpec Named NamedSpec Dispatch Reduce ReduceSpec ReduceProofs ReduceChunkProofs.
Import ListNotations.
Open Scope string_scope.
Open Scope list_scope.
Open Scope Z_scope.

(** None of these functions has a rule of its own. *)
Theorem C68_no_rule : Forall (fun f => handler_of f = HDefault) (along_functions ++ over_functions).
Proof. apply Forall_forall. intros f I. repeat (destruct I as [<-|I]; [vm_compute; reflexivity|]). destruct I. Qed.

(** Of these only softmax is on the list of functions known to be valid; the others give a warning. *)
Theorem C68_listed : forall f, In f (along_functions ++ over_functions) ->
  (In f DEFAULT_VALID <-> f = "softmax" \/ f = "Tensor.softmax").
Proof. exact listed_softmax. Qed.

(** Accepted are only dimensions that exist, each once. *)
Theorem C68_accepts : forall (V : Type) name (op : list V -> V) (f : list V -> list V) x bd ld c rs T dims r keep o,
  handler_of name = HDefault -> stream_ok x bd ld c rs T ->
  (call_reduce name op x dims keep = Ok o -> exists ds, Forall2 (refers (names x)) dims ds /\ NoDup ds) /\
  (call_along name f x r = Ok o -> exists k, refers (names x) r k).
Proof. intros V. exact accepts_only. Qed.

(** A reduction over dimensions other than batch and length: the same streams with the same metadata, each value computed at
    its own place in batch and time. Missing: see the refutations below. *)
Theorem C68_over_partial : forall (V : Type) name (op : list V -> V) x bd ld c rs T dims ds,
  handler_of name = HDefault -> stream_ok x bd ld c rs T -> Forall2 (refers (names x)) dims ds -> NoDup ds -> ds <> [] ->
  ~ In bd ds -> ~ In ld ds ->
  exists y bd' ld', call_reduce name op x dims false = Ok (DStream y) /\ stream_ok y bd' ld' c rs T /\
    names y = map (fun k => nth k (names x) None) (others (length (names x)) ds) /\
    nth_error (others (length (names x)) ds) bd' = Some bd /\ nth_error (others (length (names x)) ds) ld' = Some ld /\
    combined op ds (tn x) (tn y).
Proof.
  intros V name op x bd ld c rs T dims ds H SO R ND NE NB NL.
  assert (LB : (bd < length (names x))%nat) by (apply nth_error_Some; rewrite (so_bname _ _ _ _ _ _ SO); discriminate).
  assert (LL : (ld < length (names x))%nat) by (apply nth_error_Some; rewrite (so_lname _ _ _ _ _ _ SO); discriminate).
  destruct (In_nth_error _ _ (proj2 (In_others (length (names x)) ds bd) (conj LB NB))) as (bd' & HB).
  destruct (In_nth_error _ _ (proj2 (In_others (length (names x)) ds ld) (conj LL NL))) as (ld' & HL).
  rewrite (reduce_ok _ _ _ _ _ _ _ _ _ _ _ H SO R ND). destruct ds as [|d ds]; [congruence|].
  eexists. exists bd', ld'. split; [reflexivity|]. split; [now apply (reduce_stream_ok op x bd ld)|]. cbn [names tn].
  split; [|split; [exact HB|split; [exact HL|apply reduce_combined]]].
  unfold ndim. rewrite <- (so_rank _ _ _ _ _ _ SO). now apply left_over_dims.
Qed.

(** The same with keepdim. *)
Theorem C68_over_keepdim_partial : forall (V : Type) name (op : list V -> V) x bd ld c rs T dims ds,
  handler_of name = HDefault -> stream_ok x bd ld c rs T -> Forall2 (refers (names x)) dims ds -> NoDup ds -> ds <> [] ->
  ~ In bd ds -> ~ In ld ds ->
  exists y, call_reduce name op x dims true = Ok (DStream y) /\ stream_ok y bd ld c rs T /\ names y = names x /\
    combined_keep op ds (tn x) (tn y).
Proof.
  intros V name op x bd ld c rs T dims ds H SO R ND NE NB NL.
  rewrite (reduce_ok _ _ _ _ _ _ _ _ _ _ _ H SO R ND). destruct ds as [|d ds]; [congruence|].
  eexists. split; [reflexivity|]. split; [now apply (reduce_keep_ok op x bd ld)|]. split; [reflexivity|apply reduce_combined_keep].
Qed.

(** A function along any dimension: the same streams, names and metadata, every line computed from the same line. Along a
    dimension other than batch and length a line lies in one stream and one time step. *)
Theorem C68_along_partial : forall (V : Type) name (f : list V -> list V) x bd ld c rs T r k n,
  handler_of name = HDefault -> keeps_length f -> stream_ok x bd ld c rs T -> refers (names x) r k -> nth_error (shp (tn x)) k = Some n ->
  exists y, call_along name f x r = Ok (DStream y) /\ stream_ok y bd ld c rs T /\ names y = names x /\ shp (tn y) = shp (tn x) /\
    (forall ia ic, length ia = k -> line (tn y) n ia ic = f (line (tn x) n ia ic)).
Proof.
  intros V name f x bd ld c rs T r k n H K SO R N. rewrite (along_ok _ _ _ _ _ _ _ _ _ _ H SO R).
  eexists. split; [reflexivity|]. split; [now apply along_stream_ok|]. split; [reflexivity|]. split; [reflexivity|].
  intros ia ic L. cbn [tn]. apply along_line; auto. now apply nth_error_nth.
Qed.

(** Along the length dimension: every stream gets what it would get alone, whatever its padding and the other streams, if and
    only if the function is causal. *)
Theorem C68_length_exact : forall (V : Type) name (f : list V -> list V), handler_of name = HDefault -> keeps_length f ->
  ((forall x bd ld c rs T y, stream_ok x bd ld c rs T -> call_along name f x (DNam "L") = Ok (DStream y) -> each_alone f bd ld rs x y)
   <-> causal f).
Proof.
  intros V name f H K. split; [now apply length_needs_causal|].
  intros C x bd ld c rs T y SO E. rewrite (along_ok _ f _ _ _ _ _ _ (DNam "L") ld H SO (so_lname _ _ _ _ _ _ SO)) in E.
  injection E as <-. eapply causal_alone; eauto.
Qed.

(** Along the length dimension, on a stream that comes in two chunks: the results for the chunks are the result for the whole
    stream, if and only if the function computes value by value. *)
Theorem C68_chunks_exact : forall (V : Type) name (f : list V -> list V), handler_of name = HDefault -> keeps_length f ->
  ((forall x x1 x2 y y1 y2 bd ld c c1 c2 rs rs1 rs2 T1 T2 ia ic,
      stream_ok x bd ld c rs (T1 + T2) -> stream_ok x1 bd ld c1 rs1 T1 -> stream_ok x2 bd ld c2 rs2 T2 -> length ia = ld ->
      line (tn x) (T1 + T2) ia ic = line (tn x1) T1 ia ic ++ line (tn x2) T2 ia ic ->
      call_along name f x (DNam "L") = Ok (DStream y) -> call_along name f x1 (DNam "L") = Ok (DStream y1) ->
      call_along name f x2 (DNam "L") = Ok (DStream y2) ->
      line (tn y) (T1 + T2) ia ic = line (tn y1) T1 ia ic ++ line (tn y2) T2 ia ic)
   <-> one_by_one f).
Proof. intros V name f. apply chunks_exact. Qed.

(** torch.cumsum is causal, but starts again in every chunk. *)
Definition run_sums (l : list Z) : list Z := map (fun k => fold_right Z.add 0 (firstn (S k) l)) (seq 0 (length l)).
Definition one_row (l : list Z) (first last : bool) : @stensor Z :=
  mkSt (mkTn [1; Z.of_nat (length l)] (fun ix => nth (Z.to_nat (nth 1 ix 0)) l 0)) [Some "B"; Some "L"]
       (of_rows false [mkRow "s" first last (Z.of_nat (length l)) 0]).
Definition row_of (r : res (@out Z)) : list Z := match r with Ok (DStream y) => line (tn y) (nth 1 (shp (tn y)) 0) [0] [] | _ => [] end.
Example C68_chunks_ex :
  row_of (call_along "cumsum" run_sums (one_row [1; 2; 3; 4] true true) (DNam "L")) = [1; 3; 6; 10] /\
  row_of (call_along "cumsum" run_sums (one_row [1; 2] true false) (DNam "L")) = [1; 3] /\
  row_of (call_along "cumsum" run_sums (one_row [3; 4] false true) (DNam "L")) = [3; 7] /\
  row_of (call_along "cumsum" (map Z.opp) (one_row [3; 4] false true) (DNam "L")) = [-3; -4].
Proof. split; [vm_compute; reflexivity|]. split; [vm_compute; reflexivity|]. split; vm_compute; reflexivity. Qed.

(** Along the batch dimension: every value is computed from the value of its own stream alone if and only if the function
    computes value by value anyway. *)
Theorem C68_batch_exact : forall (V : Type) name (f : list V -> list V), handler_of name = HDefault -> keeps_length f ->
  ((forall x bd ld c rs T y ix, stream_ok x bd ld c rs T -> call_along name f x (DNam "B") = Ok (DStream y) -> in_range (shp (tn x)) ix ->
      [at_ (tn y) ix] = f [at_ (tn x) ix])
   <-> one_by_one f).
Proof.
  intros V name f H K. split; [now apply batch_needs_pointwise|].
  intros O x bd ld c rs T y ix SO E R. rewrite (along_ok _ f _ _ _ _ _ _ (DNam "B") bd H SO (so_bname _ _ _ _ _ _ SO)) in E.
  injection E as <-. cbn [tn]. pose proof (so_bsize _ _ _ _ _ _ SO) as S.
  pose proof S as S0. apply nth_error_split in S as (s1 & s2 & Es & L). unfold in_range in R. rewrite Es in R.
  apply Forall2_app_inv_l in R as (i1 & i2 & R1 & R2 & ->). inversion R2 as [|? i ? i2' Hi R2']; subst.
  apply (one_by_one_each f (tn x) _ (zlen rs)); auto; [now apply nth_error_nth|]. now apply NamedProofs.in_range_length.
Qed.

(** Refuted: a reduction over the batch or the length dimension, or over everything, is accepted, and its result keeps the
    metadata of all streams although it is not a batch of streams any more. *)
Theorem C68_over_streams_refuted : forall (V : Type) name (op : list V -> V) x bd ld c rs T dims ds,
  handler_of name = HDefault -> stream_ok x bd ld c rs T -> Forall2 (refers (names x)) dims ds -> NoDup ds ->
  covers ds bd \/ covers ds ld ->
  exists y, call_reduce name op x dims false = Ok (DStream y) /\ smeta y = smeta x /\ not_stream y.
Proof. intros V. exact over_streams_drop. Qed.

(** With keepdim, too: several streams in a batch of size one, or streams longer than the tensor. *)
Theorem C68_over_streams_keepdim_refuted : forall (V : Type) name (op : list V -> V) x bd ld c rs T dims ds,
  handler_of name = HDefault -> stream_ok x bd ld c rs T -> Forall2 (refers (names x)) dims ds -> NoDup ds ->
  covers ds bd /\ zlen rs <> 1 \/ covers ds ld /\ Exists (fun r => 1 < rlen r) rs ->
  exists y, call_reduce name op x dims true = Ok (DStream y) /\ smeta y = smeta x /\ not_stream y.
Proof. intros V. exact over_streams_keep. Qed.

(** Refuted for softmax, which is on the list of functions known to be valid: along the length dimension the padding of a
    shorter stream takes part, so its real steps get a total weight below one, whatever positive weights are used. *)
Theorem C68_softmax_refuted : forall name w (x : @stensor Q) bd ld c rs T r', handler_of name = HDefault -> (forall v, 0 < w v)%Q ->
  stream_ok x bd ld c rs T -> refers (names x) r' ld ->
  exists y, call_along name (softmax w) x r' = Ok (DStream y) /\
    (forall ia ic b r, length ia = ld -> nth bd (ia ++ 0 :: ic) 0 = Z.of_nat b -> nth_error rs b = Some r -> 0 < rlen r < T ->
       (total (line (tn y) (rlen r) ia ic) < 1 /\ total (softmax w (line (tn x) (rlen r) ia ic)) == 1)%Q).
Proof. exact softmax_padded. Qed.

(* ---- examples *)

(** Two streams of two features: "a" with three steps and "b" with one; the padding of "b" is 9. *)
Definition two_rows : list row := [mkRow "a" true false 3 0; mkRow "b" true true 1 0].
Definition two : @stensor Z :=
  mkSt (mkTn [2; 2; 3] (fun ix => nth (Z.to_nat (6 * nth 0 ix 0 + 3 * nth 1 ix 0 + nth 2 ix 0)) [1; 2; 3; 10; 20; 30; 5; 9; 9; 50; 9; 9] 0))
       [Some "B"; Some "F"; Some "L"] (of_rows false two_rows).

Example C68_two_ok : stream_ok two 0 2 false two_rows 3.
Proof.
  constructor; try reflexivity.
  - apply NamedIndexProofs.names_dup_false. reflexivity.
  - cbn [two tn shp]. constructor; [lia|]. constructor; [lia|]. constructor; [lia|constructor].
  - constructor; [simpl; lia|]. constructor; [simpl; lia|constructor].
  - constructor; [simpl; lia|]. constructor; [simpl; lia|constructor].
Qed.

Definition zsum' (l : list Z) : Z := fold_right Z.add 0 l.
Fixpoint cumsum_from (a : Z) (l : list Z) : list Z := match l with [] => [] | v :: r => (a + v) :: cumsum_from (a + v) r end.
Definition cumsum : list Z -> list Z := cumsum_from 0.
Definition show (o : res (@out Z)) : option (list dname * list Z * list Z * meta) :=
  match o with
  | Ok (DStream y) => Some (names y, shp (tn y), map (at_ (tn y)) (Gather.all_positions (shp (tn y))), smeta y)
  | _ => None
  end.

Example C68_sum_features : show (call_reduce "sum" zsum' two [DNam "F"] false) =
  Some ([Some "B"; Some "L"], [2; 3], [11; 22; 33; 55; 18; 18], smeta two).
Proof. vm_compute. reflexivity. Qed.

Example C68_sum_keepdim : show (call_reduce "Tensor.sum" zsum' two [DNum (-2)] true) =
  Some ([Some "B"; Some "F"; Some "L"], [2; 1; 3], [11; 22; 33; 55; 18; 18], smeta two).
Proof. vm_compute. reflexivity. Qed.

(** A cumulative sum is causal; the first step of "b" is 5 and 50 as if it were alone. *)
Example C68_cumsum : keeps_length cumsum /\ causal cumsum /\ show (call_along "cumsum" cumsum two (DNam "L")) =
  Some ([Some "B"; Some "F"; Some "L"], [2; 2; 3], [1; 3; 6; 10; 30; 60; 5; 14; 23; 50; 59; 68], smeta two).
Proof.
  split; [|split; [|vm_compute; reflexivity]]; unfold cumsum; generalize 0.
  - intros a l. revert a. induction l as [|v l IH]; intros a; simpl; [reflexivity|]. now rewrite IH.
  - intros a l. revert a. induction l as [|v l IH]; intros a r; simpl; [reflexivity|]. now rewrite IH.
Qed.

(** Refuted: sums over time, streams or everything. *)
Example C68_sum_streams :
  show (call_reduce "sum" zsum' two [DNam "L"] false) = Some ([Some "B"; Some "F"], [2; 2], [6; 60; 23; 68], smeta two) /\
  show (call_reduce "sum" zsum' two [DNum 0] false) = Some ([Some "F"; Some "L"], [2; 3], [6; 11; 12; 60; 29; 39], smeta two) /\
  show (call_reduce "sum" zsum' two [] false) = Some ([], [], [157], smeta two).
Proof. vm_compute. split; [reflexivity|]. split; reflexivity. Qed.

(** A dimension given twice, one that is not there, and a name that is not there. *)
Example C68_errors :
  call_reduce "sum" zsum' two [DNum 1; DNam "F"] false = Err RuntimeError /\ call_reduce "sum" zsum' two [DNum 3] false = Err IndexError /\
  call_along "cumsum" cumsum two (DNam "T") = Err RuntimeError.
Proof. vm_compute. split; [reflexivity|]. split; reflexivity. Qed.

(** Softmax over equal weights: a step of "b" should weigh 1 and weighs a third. *)
Definition twoQ : @stensor Q := mkSt (mkTn [2; 3] (fun _ => 0%Q)) [Some "B"; Some "L"] (of_rows false two_rows).
Example C68_softmax_third :
  match call_along "softmax" (softmax (fun _ => 1%Q)) twoQ (DNum (-1)) with
  | Ok (DStream y) => Qeq_bool (total (line (tn y) 1 [1] [])) (1 # 3) && Qeq_bool (total (line (tn y) 3 [0] [])) 1
  | _ => false
  end = true.
Proof. vm_compute. reflexivity. Qed.

(* ---- assumptions *)
Print Assumptions C68_no_rule.
Print Assumptions C68_listed.
Print Assumptions C68_accepts.
Print Assumptions C68_over_partial.
Print Assumptions C68_over_keepdim_partial.
Print Assumptions C68_along_partial.
Print Assumptions C68_length_exact.
Print Assumptions C68_chunks_exact.
Print Assumptions C68_batch_exact.
Print Assumptions C68_over_streams_refuted.
Print Assumptions C68_over_streams_keepdim_refuted.
Print Assumptions C68_softmax_refuted.

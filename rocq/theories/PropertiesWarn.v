(** Theorems of record: warnings (C72). *)

From Coq Require Import String List ZArith Bool Lia.
From Coq Require Import ZifyBool.
From Verif Require Import Py Meta Named NamedSpec NamedIndexProofs Gather Dispatch ListsSpec Warn WarnSpec WarnProofs.
Import ListNotations.
Open Scope string_scope.
Open Scope list_scope.
Open Scope nat_scope.

(** After suppress_warnings(True) none of the package's warnings is shown or raised, whatever the filters were and whatever else is warned about. *)
Theorem C72_suppressed : forall st es i e, nth_error es i = Some e -> ours (cat_of e) ->
  nth_error (snd (play (suppress_warnings st true) es)) i = Some Silent.
Proof.
  intros st es i [[[m t] c] n] Hi Hc. apply (play_ignored es (suppress_warnings st true) i m t c n Hi). intros m'. now apply (suppress_ours st true c m').
Qed.

(** After suppress_warnings(False) each of them is shown exactly once for each text and line, and none is raised. *)
Theorem C72_enabled : forall st es i e, reach st -> nth_error es i = Some e -> ours (cat_of e) ->
  (In e (firstn i es) -> nth_error (snd (play (suppress_warnings st false) es)) i = Some Silent) /\
  (~ In e (firstn i es) -> nth_error (snd (play (suppress_warnings st false) es)) i = Some Shown).
Proof.
  intros st es i [[[m t] c] n] R Hi Hc.
  pose proof (play_default es (suppress_warnings st false) i m t c n Hi (fun m' => suppress_ours st false c m' Hc)) as D.
  rewrite (suppress_fresh st false m (reach_sane st R)) in D. destruct D as [[D1 D2]|[D1 D2]]; (split; intros H; [|]); auto.
  - destruct D2 as [[]|D2]. contradiction.
  - exfalso. apply D2. now right.
Qed.

(** What the filters say about other warnings does not change. *)
Theorem C72_others : forall st b c m a, ~ ours c -> (decides (filters (suppress_warnings st b)) c m a <-> decides (filters st) c m a).
Proof. intros st b c m a H. rewrite <- !find_action_iff, suppress_others by exact H. reflexivity. Qed.

(** But others that were shown are shown once more: a change of filters makes Python forget what was shown. *)
Theorem C72_again_refuted : forall st b m t c n, reach st -> ~ ours c -> decides (filters st) c m ADefault ->
  let st1 := fst (emit st m t c n) in
  snd (emit st1 m t c n) = Silent /\ snd (emit (suppress_warnings st1 b) m t c n) = Shown.
Proof.
  intros st b m t c n R Hc Hd. apply find_action_iff in Hd. cbv zeta. pose proof (emit_default st m t c n Hd) as D.
  pose proof (emit_same st m t c n) as [F _]. pose proof (reach_warn st m t c n R) as R1. destruct (emit st m t c n) as [st1 o]. cbn [fst] in *. split.
  - assert (D1 : find_action (filters st1) c m = ADefault) by now rewrite F. pose proof (emit_default st1 m t c n D1) as E. destruct (emit st1 m t c n) as [st2 o2].
    cbn [snd]. apply E. apply D.
  - assert (D1 : find_action (filters (suppress_warnings st1 b)) c m = ADefault) by now rewrite suppress_others, F.
    pose proof (emit_default _ m t c n D1) as E. destruct (emit (suppress_warnings st1 b) m t c n) as [st2 o2]. cbn [snd]. apply E.
    rewrite (suppress_fresh st1 b m (reach_sane st1 R1)). intros [].
Qed.

(** However often it is called, there are at most two more filters. *)
Theorem C72_bounded : forall st bs, length (filters (fold_left suppress_warnings bs st)) <= length (filters st) + 2.
Proof.
  intros st bs. pose proof (suppress_growth bs st) as H. cbv zeta in H. etransitivity; [exact H|].
  unfold missing. repeat destruct (in_dec _ _ _); lia.
Qed.

(** Suppressing and allowing again restores what was, if there were no filters for the package's warnings other than "default". *)
Theorem C72_restored_partial : forall st, (forall c m, ours c -> decides (filters st) c m ADefault) -> forall c m a,
  decides (filters (suppress_warnings (suppress_warnings st true) false)) c m a <-> decides (filters st) c m a.
Proof.
  intros st H c m a. assert (D : {ours c} + {~ ours c}).
  { unfold ours. destruct (issub c CatStream) eqn:E; [left; now apply issub_iff|right; rewrite <- issub_iff; congruence]. }
  destruct D as [D|D]; [|now rewrite !C72_others by exact D].
  specialize (H c m D). apply find_action_iff in H. rewrite <- !find_action_iff, suppress_ours, H by exact D. reflexivity.
Qed.

(** Otherwise it does not: under python -W error these warnings are exceptions before and not afterwards. *)
Theorem C72_restored_refuted : exists st, reach st /\ forall c m, ours c ->
  decides (filters st) c m AError /\ ~ decides (filters (suppress_warnings (suppress_warnings st true) false)) c m AError.
Proof.
  exists (mkW [mkF AError CatWarning None] 0 (fun _ => mkR 0 []) []). split; [constructor|]. intros c m H. split.
  - apply find_action_iff. cbn [filters find_action]. assert (E : matches c m (mkF AError CatWarning None) = true) by (apply matches_iff; split; [constructor|now left]).
    rewrite E. reflexivity.
  - rewrite <- find_action_iff, suppress_ours by exact H. discriminate.
Qed.

(** A function warns exactly if it is in none of the sets of functions. *)
Theorem C72_unhandled : forall st user f, dispatch_warning st user f <> None <->
  ~ In f (VALID ++ CUSTOMIZED ++ DECOUPLE ++ RECOUPLE ++ INPLACE_RECOUPLE ++ DEFAULT_VALID).
Proof.
  intros st user f. assert (M : forall l, mem f l = true <-> In f l).
  { intros l. unfold mem. rewrite existsb_exists. split; [intros (x & Hx & E); apply String.eqb_eq in E as <-; exact Hx|intros H; exists f; split; [exact H|apply String.eqb_refl]]. }
  unfold dispatch_warning. rewrite !in_app_iff, <- !M.
  destruct (mem f VALID), (mem f CUSTOMIZED), (mem f DECOUPLE), (mem f RECOUPLE), (mem f INPLACE_RECOUPLE), (mem f DEFAULT_VALID);
    cbn [orb]; split; intros H; try discriminate; try (now contradiction H); try (exfalso; apply H; tauto); intuition discriminate.
Qed.

(** The place of a warning is a line of the package, so the second place of a program where such a function is used gets no warning. *)
Theorem C72_place_refuted : forall st user user' f, reach st -> dispatch_warning st user f <> None ->
  exists st1 st2, dispatch_warning (suppress_warnings st false) user f = Some (st1, Shown) /\ dispatch_warning st1 user' f = Some (st2, Silent).
Proof.
  intros st user user' f R. unfold dispatch_warning. destruct (_ || _); [now intros []|]. intros _. unfold ds_warn, warn_level. cbn [nth Nat.pred].
  set (t := String.append _ _). set (s0 := suppress_warnings st false).
  assert (O : ours CatStream) by constructor.
  pose proof (emit_default s0 "dreamstream.tensor" t CatStream 809 (suppress_ours st false _ _ O)) as D.
  pose proof (emit_same s0 "dreamstream.tensor" t CatStream 809) as [F _].
  destruct (emit s0 "dreamstream.tensor" t CatStream 809) as [st1 o]. cbn [fst] in F.
  assert (D1 : find_action (filters st1) CatStream "dreamstream.tensor" = ADefault) by (rewrite F; now apply suppress_ours).
  pose proof (emit_default st1 "dreamstream.tensor" t CatStream 809 D1) as E.
  destruct (emit st1 "dreamstream.tensor" t CatStream 809) as [st2 o2] eqn:E2. exists st1, st2. split; [f_equal; f_equal|rewrite E2; f_equal; f_equal].
  - apply D. rewrite (suppress_fresh st false _ (reach_sane st R)). intros [].
  - apply E. apply D.
Qed.

(** Functions that take stream tensors apart for good (argmax, nonzero and so on) give plain tensors without any warning. *)
Theorem C72_silent_refuted : forall f, handler_of f = HDecouple -> forall st user, dispatch_warning st user f = None /\
  forall (V : Type) custom (impl : @raw V) args kw o, torch_function custom f impl args kw = Ok o -> no_stream o.
Proof.
  intros f H st user. split.
  - unfold dispatch_warning. unfold handler_of in H. destruct (mem f VALID); [discriminate|]. destruct (mem f CUSTOMIZED); [discriminate|].
    destruct (mem f DECOUPLE); [reflexivity|]. destruct (mem f RECOUPLE); [discriminate|]. destruct (mem f INPLACE_RECOUPLE); discriminate.
  - intros V custom impl args kw o E. unfold torch_function in E. rewrite H in E. destruct (decouple_call impl args kw) as [r|]; [|discriminate]. injection E as <-.
    revert r. fix IH 1. intros [t n|t n|k|l]; cbn [as_plain no_stream]; try exact I. induction l as [|r l IHl]; cbn [map]; [exact I|]. split; [apply IH|exact IHl].
Qed.

(** flatten and the scatter functions warn exactly if the result is a plain tensor; unless the filters make an exception of it, the result is
    what it is without warnings. *)
Theorem C72_fallback : forall (V : Type) st user,
  (forall (x : @stensor V) s e, exists st' o r', flatten_call st user x s e = (st', o, r') /\
     (o <> None <-> exists t, flatten x s e = Ok (inl t)) /\ (o <> Some Raised <-> r' = Some (flatten x s e))) /\
  (forall reduce red inplace input dim ix ixi src, exists st' o r', scatter_call reduce st user red inplace input dim ix ixi src = (st', o, r') /\
     (o <> None <-> exists t : @tensor V, scatter red inplace input dim ix ixi src = Ok (OPlain t)) /\
     (o <> Some Raised <-> r' = Some (scatter red inplace input dim ix ixi src))).
Proof.
  assert (G : forall (R : Type) st user line op desc (plain : R -> bool) r, exists st' o r', with_warning st user line op desc plain r = (st', o, r') /\
     (o <> None <-> exists x, r = Ok x /\ plain x = true) /\ (o <> Some Raised <-> r' = Some r)).
  { intros R st user line op desc plain [x|e]; unfold with_warning.
    - destruct (plain x) eqn:E.
      + destruct (fallback_warning _ _ op desc) as [st' oc]. exists st', (Some oc), (match oc with Raised => None | _ => Some (Ok x) end).
        split; [reflexivity|]. split; [split; [intros _; now exists x|discriminate]|]. destruct oc; split; congruence.
      + exists st, None, (Some (Ok x)). split; [reflexivity|]. split; [|split; congruence].
        split; [congruence|]. intros (y & Ey & Py). injection Ey as <-. congruence.
    - exists st, None, (Some (Err e)). split; [reflexivity|]. split; [|split; congruence]. split; [congruence|]. intros (y & Ey & _). discriminate. }
  intros V st user. split.
  - intros x s e. unfold flatten_call. edestruct G as (st' & o & r' & E & H1 & H2). exists st', o, r'. split; [exact E|]. split; [|exact H2]. rewrite H1. split.
    + intros ([t|y] & E1 & E2); [now exists t|discriminate].
    + intros (t & E1). exists (inl t). auto.
  - intros reduce red inplace input dim ix ixi src.
    assert (P : forall line desc, exists st' o r', with_warning st user line (if reduce then "scatter_reduce" else "scatter_add") desc (fun o => negb (is_stream o)) (scatter red inplace input dim ix ixi src) = (st', o, r') /\
     (o <> None <-> exists t : @tensor V, scatter red inplace input dim ix ixi src = Ok (OPlain t)) /\
     (o <> Some Raised <-> r' = Some (scatter red inplace input dim ix ixi src))).
    { intros line desc. edestruct G as (st' & o & r' & E & H1 & H2). exists st', o, r'. split; [exact E|]. split; [|exact H2]. rewrite H1. split.
      - intros ([y|t] & E1 & E2); [discriminate|now exists t].
      - intros (t & E1). exists (OPlain t). auto. }
    unfold scatter_call. cbv zeta. destruct (_ || _); apply P.
Qed.

(** The warning of the scatter functions gives the reason: the dimension, or different metadata. *)
Theorem C72_reason : forall (V : Type) reduce st user red inplace (x : @stensor V) dim ix ixi src t bd ld,
  names_distinct (names x) -> nth_error (names x) bd = Some (Some "B") -> nth_error (names x) ld = Some (Some "L") ->
  scatter red inplace (OStream x) dim ix ixi src = Ok (OPlain t) ->
  exists desc line st' o r', scatter_call reduce st user red inplace (OStream x) dim ix ixi src = (st', Some o, r') /\
    (st', o) = emit st "dreamstream.overrides" (fallback_text (if reduce then "scatter_reduce" else "scatter_add") desc) CatFallback line /\
    (dim = Z.of_nat bd \/ dim = Z.of_nat ld -> desc = "when applied on the batch or length dimensions") /\
    (dim <> Z.of_nat bd -> dim <> Z.of_nat ld ->
      desc = "when more than one of input, index and src are StreamTensor with different StreamMetadata").
Proof.
  intros V reduce st user red inplace x dim ix ixi src t bd ld ND HB HL H. unfold scatter_call. cbv zeta.
  destruct src as [o|]; [|discriminate]. cbn [op_info collected flat_map app].
  unfold BATCH, LENGTH. rewrite (names_index_ok _ _ _ HB ND), (names_index_ok _ _ _ HL ND).
  assert (G : forall line op desc, exists st' oc r', with_warning st user line op desc (fun o0 : @operand V => negb (is_stream o0)) (Ok (OPlain t)) = (st', Some oc, r') /\
     (st', oc) = emit st "dreamstream.overrides" (fallback_text op desc) CatFallback line).
  { intros line op desc. unfold with_warning, fallback_warning, warn_level. cbn [is_stream negb nth Nat.pred].
    destruct (emit st _ _ _ line) as [st' oc]. now exists st', oc, (match oc with Raised => None | _ => Some (Ok (OPlain t)) end). }
  rewrite H. destruct (_ || _)%bool eqn:E.
  - eexists _, _. edestruct G as (st' & oc & r' & E1 & E2). exists st', oc, r'. split; [exact E1|]. split; [exact E2|]. split; [reflexivity|]. lia.
  - eexists _, _. edestruct G as (st' & oc & r' & E1 & E2). exists st', oc, r'. split; [exact E1|]. split; [exact E2|]. split; [lia|reflexivity].
Qed.

(** With all warnings suppressed nothing about the result changes. *)
Theorem C72_result : forall (R : Type) st user line op desc (plain : R -> bool) r b, reach st ->
  exists st' o, with_warning (suppress_warnings st b) user line op desc plain r = (st', o, Some r) /\ (b = true -> o <> Some Shown).
Proof.
  intros R st user line op desc plain [x|e] b Hr; unfold with_warning; [|exists (suppress_warnings st b), None; split; [reflexivity|discriminate]].
  destruct (plain x); [|exists (suppress_warnings st b), None; split; [reflexivity|discriminate]].
  unfold fallback_warning, warn_level. cbn [nth Nat.pred]. set (t := fallback_text op desc). set (m := "dreamstream.overrides").
  assert (O : ours CatFallback) by constructor. pose proof (suppress_ours st b CatFallback m O) as F. destruct b.
  - pose proof (emit_silent _ m t CatFallback line F) as S. destruct (emit _ m t CatFallback line) as [st' o]. cbn [snd] in S. subst o.
    exists st', (Some Silent). split; [reflexivity|discriminate].
  - pose proof (emit_default _ m t CatFallback line F) as D. rewrite (suppress_fresh st false m (reach_sane st Hr)) in D.
    destruct (emit _ m t CatFallback line) as [st' o]. destruct D as (_ & _ & D). rewrite D by (intros []). exists st', (Some Shown). split; [reflexivity|discriminate].
Qed.

(** The text names the operation and its advice names a module that is not this package. *)
Theorem C72_text : forall op desc, occurs ("`" ++ op ++ "`")%string (fallback_text op desc) /\ occurs desc (fallback_text op desc) /\
  occurs "`torchstream.suppress_warnings(True)`" (fallback_text op desc).
Proof.
  intros op desc. assert (A : forall a b c : string, ((a ++ b) ++ c)%string = (a ++ b ++ c)%string).
  { induction a as [|x a IH]; intros b c; cbn [String.append]; [reflexivity|now rewrite IH]. }
  assert (L : forall x a b, occurs x a -> occurs x (a ++ b)%string) by (intros x a b (u & v & ->); exists u, (v ++ b)%string; now rewrite !A).
  assert (R : forall x a b, occurs x b -> occurs x (a ++ b)%string) by (intros x a b (u & v & ->); exists (a ++ u)%string, v; now rewrite !A).
  unfold fallback_text. split; [|split].
  - exists "The "%string. eexists. cbn [String.append]. rewrite !A. cbn [String.append]. reflexivity.
  - cbv zeta. do 3 apply R. apply L. destruct desc as [|c d]; [exists EmptyString, EmptyString; reflexivity|]. apply R.
    exists EmptyString, EmptyString. change (String c d = (String c d ++ EmptyString)%string). generalize (String c d). induction s as [|y s IH]; cbn [String.append]; [reflexivity|now rewrite <- IH].
  - cbv zeta. do 9 apply R. apply L. exists "expected, you can suppress this warning by calling "%string, " or by "%string. reflexivity.
Qed.

(* ---------- examples ---------- *)

Definition w_start : wstate := mkW [mkF AIgnore CatOther None] 0 (fun _ => mkR 0 []) [].

(** True: nothing. False: each text and line once, of each module; other warnings as the filters say. *)
Example C72_ex_play :
  snd (play (suppress_warnings w_start true) [("a", "x", CatStream, 1); ("a", "x", CatFallback, 1); ("a", "x", CatRuntime, 1)]) = [Silent; Silent; Shown] /\
  snd (play (suppress_warnings w_start false) [("a", "x", CatStream, 1); ("a", "x", CatStream, 1); ("a", "y", CatStream, 1); ("b", "x", CatStream, 1);
    ("a", "x", CatStream, 2); ("a", "x", CatOther, 1); ("a", "x", CatRuntime, 1); ("a", "x", CatStream, 1)])
  = [Shown; Silent; Shown; Shown; Shown; Silent; Shown; Silent].
Proof. split; vm_compute; reflexivity. Qed.

Example C72_ex_reach : reach w_start /\ reach (suppress_warnings w_start true) /\ ours CatFallback /\ ~ ours CatRuntime /\
  decides (filters w_start) CatRuntime "a" ADefault.
Proof.
  split; [apply reach_start|]. split; [apply suppress_reach, reach_start|]. split; [apply fallback_stream|].
  split; [intros H; apply issub_iff in H; discriminate|]. apply find_action_iff. reflexivity.
Qed.

(** The filters after many calls. *)
Example C72_ex_bounded : filters (fold_left suppress_warnings [true; false; true; true; false; true] w_start)
  = [mkF AIgnore CatStream None; mkF ADefault CatStream None; mkF AIgnore CatOther None].
Proof. vm_compute. reflexivity. Qed.

(** Functions with and without warnings. *)
Example C72_ex_dispatch : dispatch_warning w_start [] "Tensor.masked_select" <> None /\ dispatch_warning w_start [] "sin" = None /\
  handler_of "argmax" = HDecouple /\ dispatch_warning w_start [] "argmax" = None.
Proof. split; [vm_compute; discriminate|]. split; [vm_compute; reflexivity|]. split; vm_compute; reflexivity. Qed.

Definition w_x : @stensor Z := mkSt (mkTn [2; 3]%Z (fun ix => 10 * nth 0 ix 0 + nth 1 ix 0)%Z) [Some BATCH; Some LENGTH] (mkMeta ["a"; "b"] [true; true] [true; false] [3; 2]%Z None).

(** flatten over batch and length: a plain tensor, and a warning the first time; an exception if the filters say so. *)
(** Scattering along the features with a source that is described differently, and along the steps. *)
Definition w_y (e : bool) : @stensor Z :=
  mkSt (mkTn [1; 2; 3]%Z (fun ix => 10 * nth 1 ix 0 + nth 2 ix 0)%Z) [Some BATCH; Some "F"; Some LENGTH] (mkMeta ["a"] [true] [e] [3]%Z (Some [0%Z])).
Example C72_ex_reason : let ix := mkTn [1; 1; 1]%Z (fun _ => 0%Z) in let red := fun (v : Z) l => fold_left Z.add l v in
  names_distinct (names (w_y true)) /\
  (exists t, scatter red false (OStream (w_y true)) 1 ix None (SrcTensor (OStream (w_y false))) = Ok (OPlain t)) /\
  (exists t, scatter red false (OStream (w_y true)) 2 ix None (SrcTensor (OStream (w_y true))) = Ok (OPlain t)) /\
  snd (fst (scatter_call false (suppress_warnings w_start false) [] red false (OStream (w_y true)) 1 ix None (SrcTensor (OStream (w_y false))))) = Some Shown.
Proof.
  cbv zeta. split.
  { intros [|[|[|i]]] [|[|[|j]]] s Hi Hj; cbv in Hi, Hj; try (destruct i; discriminate); try (destruct j; discriminate); congruence. }
  split; [eexists; vm_compute; reflexivity|]. split; [eexists; vm_compute; reflexivity|]. vm_compute. reflexivity.
Qed.

Example C72_ex_flatten :
  (exists st1 st2 t, flatten_call (suppress_warnings w_start false) [] w_x 0 1 = (st1, Some Shown, Some (Ok (inl t))) /\ shp t = [6]%Z /\
    flatten_call st1 [("user", 7)] w_x 0 1 = (st2, Some Silent, Some (Ok (inl t)))) /\
  (exists st, flatten_call (set_filters w_start [mkF AError CatWarning None]) [] w_x 0 1 = (st, Some Raised, None)).
Proof.
  split.
  - eexists. eexists. eexists. split; [vm_compute; reflexivity|]. split; [vm_compute; reflexivity|]. vm_compute. reflexivity.
  - eexists. vm_compute. reflexivity.
Qed.

(* ---- assumptions *)
Print Assumptions C72_suppressed.
Print Assumptions C72_enabled.
Print Assumptions C72_others.
Print Assumptions C72_again_refuted.
Print Assumptions C72_bounded.
Print Assumptions C72_restored_partial.
Print Assumptions C72_restored_refuted.
Print Assumptions C72_unhandled.
Print Assumptions C72_place_refuted.
Print Assumptions C72_silent_refuted.
Print Assumptions C72_fallback.
Print Assumptions C72_reason.
Print Assumptions C72_result.
Print Assumptions C72_text.

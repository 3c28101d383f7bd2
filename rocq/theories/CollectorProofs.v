(** Proofs about OutputCollector. *)

From Coq Require Import String List ZArith Bool Lia.
From Coq Require Import ZifyBool.
From Verif Require Import Py Meta MetaSpec MetaProofs MetaLenProofs MetaSplitProofs MetaBatchProofs Pad Conv ConvSpec ConvProofs PadProofs Collector CollectorSpec.
Import ListNotations.
Open Scope nat_scope.

Section CollectorProofs.
Context {V : Type}.
Implicit Types (l : list (chunk V)) (r : chunk V) (st : collector V).

(** Feeding chunks one by one. *)
Fixpoint feed (h : bool) st l : collector V * option exn :=
  match l with
  | [] => (st, None)
  | r :: t => match update_unary st (single_tensor h r) with
              | (st1, None) => feed h st1 t
              | q => q
              end
  end.

Lemma feed_app h : forall l1 st l2, feed h st (l1 ++ l2) =
  match feed h st l1 with (st1, None) => feed h st1 l2 | q => q end.
Proof.
  induction l1 as [|r l1 IH]; intros st l2; simpl; auto.
  destruct (update_unary st (single_tensor h r)) as [st1 [e|]]; auto.
Qed.

Lemma update_one_feed z h d st : wide_enough d -> update_one st (as_input z h d) = feed h st (delivered d).
Proof.
  destruct d as [w rs|r]; cbn [wide_enough as_input update_one delivered]; intros Hw.
  - rewrite unpad_rows by auto. clear Hw. revert st. induction rs as [|r rs IH]; intros st; cbn [map update_rows filter]; auto.
    cbn [sm max_length lens]. unfold max_length. cbn [lens zmax fold_left].
    destruct (length (cdat r)) as [|n] eqn:E.
    + cbn [Nat.eqb negb Z.of_nat Z.ltb Z.compare]. apply IH.
    + cbn [Nat.eqb negb]. replace (0 <? Z.of_nat (S n))%Z with true by lia. cbn [feed].
      assert (Hs : mkSingle (cdat r) (mkMeta [cid r] [match cdat r with [] => false | _ => csos r end]
        [match cdat r with [] => false | _ => ceos r end] [Z.of_nat (S n)] (if h then Some [cch r] else None)) = single_tensor h r).
      { unfold single_tensor. rewrite E. destruct (cdat r); [discriminate|reflexivity]. }
      rewrite Hs. destruct (update_unary st (single_tensor h r)) as [st1 [e|]]; auto.
  - cbn [single_tensor sm ids length Nat.eqb feed]. destruct (update_unary st (single_tensor h r)) as [st1 [e|]]; auto.
Qed.

Lemma update_feed z h : forall ds st, Forall wide_enough ds ->
  update st (map (as_input z h) ds) = feed h st (List.concat (map delivered ds)).
Proof.
  induction ds as [|d ds IH]; intros st H; cbn [map update List.concat]; auto. inversion H; subst.
  rewrite update_one_feed, feed_app by auto. destruct (feed h st (delivered d)) as [st1 [e|]]; auto.
Qed.

(* ---------- the invariant ---------- *)

Definition of_id (i : string) l : list (chunk V) := filter (fun r => String.eqb (cid r) i) l.

Definition merge (h : bool) l : option (single V) :=
  match l with
  | [] => None
  | f :: _ => let e := last l f in
      Some (mkSingle (data_of l) (mkMeta [cid f] [csos f] [ceos e] [Z.of_nat (length (data_of l))] (if h then Some [cch e] else None)))
  end.

Lemma nth_error_last {A} (l : list A) d : l <> [] -> nth_error l (length l - 1) = Some (last l d).
Proof.
  destruct l as [|a l] using rev_ind; [congruence|]. intros _. rewrite last_last, app_length, nth_error_app2; cbn [length]; [|lia].
  now replace (length l + 1 - 1 - length l) with 0 by lia.
Qed.

Lemma merge_joined h l x : merge h l = Some x <-> joined h l x.
Proof.
  destruct l as [|f l]; split; intros H.
  - discriminate.
  - destruct H as (? & ? & H & _). discriminate.
  - cbn [merge] in H. inversion H; subst. exists f, (last (f :: l) f). split; [reflexivity|]. split; [|reflexivity].
    apply nth_error_last. discriminate.
  - destruct H as (f' & e & H1 & H2 & ->). cbn in H1. inversion H1; subst f'. clear H1.
    rewrite (nth_error_last _ f) in H2 by discriminate. inversion H2; subst e. reflexivity.
Qed.

Definition tracks h st l : Prop :=
  forall i, entries st i = merge h (of_id i l) /\ closed st i = existsb ceos (of_id i l).

Lemma conforming_app l r : conforming (l ++ [r]) ->
  conforming l /\ existsb ceos l = false /\ csos r = match l with [] => true | _ => false end.
Proof.
  intros H. split; [|split].
  - intros k q Hk. destruct (H k q) as [H1 H2].
    { rewrite nth_error_app1; auto. apply nth_error_Some. congruence. }
    split; auto. intros E. specialize (H2 E). rewrite app_length in H2. cbn [length] in H2.
    assert (k < length l) by (apply nth_error_Some; congruence). lia.
  - destruct (existsb ceos l) eqn:E; auto. apply existsb_exists in E as (q & Hq & E).
    apply In_nth_error in Hq as (k & Hk). assert (k < length l) by (apply nth_error_Some; congruence).
    destruct (H k q) as [_ H2]; [rewrite nth_error_app1; auto|]. specialize (H2 E). rewrite app_length in H2. cbn [length] in H2. lia.
  - destruct (H (length l) r) as [H1 _]; [rewrite nth_error_app2, Nat.sub_diag; auto|]. rewrite H1. destruct l; auto.
Qed.

Lemma data_of_app l1 l2 : data_of (l1 ++ l2) = data_of l1 ++ data_of l2.
Proof. unfold data_of. now rewrite map_app, concat_app. Qed.

Lemma of_id_app i l1 l2 : of_id i (l1 ++ l2) = of_id i l1 ++ of_id i l2.
Proof. apply filter_app. Qed.

Lemma last_not_ending l f : existsb ceos (f :: l) = false -> ceos (last (f :: l) f) = false.
Proof.
  intros H. destruct (ceos (last (f :: l) f)) eqn:E; auto.
  assert (In (last (f :: l) f) (f :: l)) by (apply (nth_error_In _ (length (f :: l) - 1)); apply nth_error_last; discriminate).
  rewrite <- H. symmetry. apply existsb_exists. eauto.
Qed.

Lemma cat_two_merge h f l r x : merge h (f :: l) = Some x -> cid r = cid f -> csos r = false -> existsb ceos (f :: l) = false ->
  exists y, cat_two x (single_tensor h r) = Ok y /\ merge h ((f :: l) ++ [r]) = Some y.
Proof.
  intros Hx Hi Hs He. apply last_not_ending in He. unfold merge in Hx. set (e := last (f :: l) f) in *. clearbody e.
  inversion Hx; subst x. clear Hx.
  unfold cat_two. cbn [sm sd lens zmin fold_left bind]. replace (_ <? _)%Z with false by (unfold zlen; lia).
  cbn [single_tensor sm sd cat_length map chs]. unfold any_ending, any_starting. cbn [eos any_true existsb cat_length_checks sos ids].
  unfold any_starting. cbn [sos any_true existsb]. rewrite He, Hs, Hi. cbn [list_eqb]. rewrite String.eqb_refl. cbn [orb negb andb].
  cbn [last fold_left add_lens zip map fst snd lens eos].
  eexists. split.
  - instantiate (1 := mkSingle (data_of (f :: l) ++ cdat r) (mkMeta [cid f] [csos f] [ceos r]
        [(Z.of_nat (length (data_of (f :: l))) + Z.of_nat (length (cdat r)))%Z] (if h then Some [cch r] else None))).
    destruct h; reflexivity.
  - cbn [app merge]. change (f :: l ++ [r]) with ((f :: l) ++ [r]). rewrite last_last, data_of_app.
    unfold data_of at 2 4. cbn [map List.concat]. rewrite app_nil_r, app_length. f_equal. f_equal. f_equal. f_equal. lia.
Qed.

Lemma feed_step h st l r : tracks h st l -> conforming (of_id (cid r) (l ++ [r])) ->
  exists st', update_unary st (single_tensor h r) = (st', None) /\ tracks h st' (l ++ [r]).
Proof.
  intros HT Hc. rewrite of_id_app in Hc. unfold of_id in Hc at 2. cbn [filter] in Hc. rewrite String.eqb_refl in Hc.
  apply conforming_app in Hc as (_ & He & Hs).
  destruct (HT (cid r)) as [H1 H2]. unfold update_unary. cbn [single_tensor sm ids eos sos item].
  rewrite H2, He.
  set (st1 := if ceos r then close st (cid r) else st).
  assert (E1 : entries st1 = entries st) by (unfold st1; destruct (ceos r); reflexivity).
  assert (E2 : forall j, closed st1 j = existsb ceos (of_id j (l ++ [r]))).
  { intros j. rewrite of_id_app, existsb_app. destruct (HT j) as [_ Hj]. unfold st1, of_id at 2. cbn [filter].
    rewrite (String.eqb_sym (cid r) j). destruct (ceos r) eqn:Er.
    - cbn [close closed]. rewrite Hj. destruct (String.eqb j (cid r)); cbn [existsb orb]; rewrite ?Er; [now rewrite orb_true_r|now rewrite orb_false_r].
    - rewrite Hj. destruct (String.eqb j (cid r)); cbn [existsb]; rewrite ?Er; now rewrite orb_false_r. }
  rewrite E1, H1. clearbody st1.
  assert (Hst : forall y, merge h (of_id (cid r) l ++ [r]) = Some y -> tracks h (store st1 (cid r) y) (l ++ [r])).
  { intros y Hy j. cbn [store entries closed]. split; [|apply E2]. rewrite of_id_app. unfold of_id at 2. cbn [filter].
    rewrite (String.eqb_sym (cid r) j). destruct (String.eqb_spec j (cid r)) as [->|]; [auto|].
    rewrite app_nil_r, E1. apply HT. }
  destruct (of_id (cid r) l) as [|f l0] eqn:E.
  - cbn [merge]. rewrite Hs. eexists. split; [reflexivity|]. apply Hst. cbn [app merge last].
    unfold single_tensor, data_of. cbn [map List.concat]. now rewrite app_nil_r, Hs.
  - rewrite Hs. destruct (merge h (f :: l0)) as [x|] eqn:Ex; [|discriminate].
    assert (Hi : cid r = cid f).
    { assert (Hin : In f (of_id (cid r) l)) by (rewrite E; left; auto). apply filter_In in Hin as [_ Hin].
      apply String.eqb_eq in Hin. auto. }
    destruct (cat_two_merge h f l0 r x Ex Hi Hs He) as (y & Hy & Hm).
    rewrite Hy. eexists. split; [reflexivity|]. now apply Hst.
Qed.

Lemma conforming_prefix l1 l2 : conforming (l1 ++ l2) -> conforming l1.
Proof.
  revert l1. induction l2 as [|r l2 IH]; intros l1 H; [now rewrite app_nil_r in H|].
  assert (H' : conforming (l1 ++ [r])) by (apply IH; now rewrite <- app_assoc).
  now apply conforming_app in H'.
Qed.

Lemma feed_all h : forall l2 st l1, tracks h st l1 -> (forall i, conforming (of_id i (l1 ++ l2))) ->
  exists st', feed h st l2 = (st', None) /\ tracks h st' (l1 ++ l2).
Proof.
  induction l2 as [|r l2 IH]; intros st l1 HT Hc; cbn [feed]; [rewrite app_nil_r; eauto|].
  destruct (feed_step h st l1 r HT) as (st1 & -> & HT1).
  { specialize (Hc (cid r)). change (r :: l2) with ([r] ++ l2) in Hc. rewrite app_assoc, of_id_app in Hc.
    now apply conforming_prefix in Hc. }
  destruct (IH st1 (l1 ++ [r]) HT1) as (st' & E & HT2); [now rewrite <- app_assoc|].
  exists st'. split; auto. now rewrite <- app_assoc in HT2.
Qed.

Theorem collects z h (ds : list (delivery V)) : Forall wide_enough ds ->
  (forall i, conforming (stream_of i (map delivered ds))) ->
  exists st, update new_collector (map (as_input z h) ds) = (st, None) /\
    forall i, let l := stream_of i (map delivered ds) in
      (l = [] -> entries st i = None) /\
      (forall x, entries st i = Some x <-> joined h l x) /\
      (closed st i = true <-> exists r, In r l /\ ceos r = true).
Proof.
  intros Hw Hc. rewrite update_feed by auto.
  destruct (feed_all h (List.concat (map delivered ds)) new_collector []) as (st & E & HT).
  { intros i. split; reflexivity. }
  { exact Hc. }
  exists st. split; auto. intros i l. destruct (HT i) as [H1 H2]. cbn [app] in *.
  change (of_id i (List.concat (map delivered ds))) with l in *. split; [|split].
  - intros El. rewrite H1, El. reflexivity.
  - intros x. rewrite H1. apply merge_joined.
  - rewrite H2, existsb_exists. reflexivity.
Qed.

(* ---------- rejection ---------- *)

Theorem reject_closed h st r : closed st (cid r) = true -> update_unary st (single_tensor h r) = (st, Some ValueError).
Proof. intros H. unfold update_unary. cbn [single_tensor sm ids]. now rewrite H. Qed.

Theorem reject_flags h st r : closed st (cid r) = false -> (csos r = true <-> entries st (cid r) <> None) ->
  exists st', update_unary st (single_tensor h r) = (st', Some ValueError) /\
    entries st' = entries st /\ (forall j, closed st' j = closed st j || (String.eqb j (cid r) && ceos r)).
Proof.
  intros Hc H. unfold update_unary. cbn [single_tensor sm ids eos sos item]. rewrite Hc.
  set (st1 := if ceos r then close st (cid r) else st).
  assert (E1 : entries st1 = entries st) by (unfold st1; destruct (ceos r); reflexivity).
  assert (E2 : forall j, closed st1 j = closed st j || (String.eqb j (cid r) && ceos r)).
  { intros j. unfold st1. destruct (ceos r); cbn [close closed]; [rewrite andb_true_r; apply orb_comm|now rewrite andb_false_r, orb_false_r]. }
  exists st1. rewrite E1. split; auto.
  destruct (entries st (cid r)) as [x|] eqn:Ex; destruct (csos r) eqn:Es; auto.
  - exfalso. destruct H as [_ H]. assert (false = true) by (apply H; discriminate). discriminate.
  - exfalso. destruct H as [H _]. now apply H.
Qed.

(** Any exception of one chunk leaves the collected data alone. *)
Theorem reject_keeps_entries st x st' e : update_unary st x = (st', Some e) -> entries st' = entries st.
Proof.
  unfold update_unary. destruct (ids (sm x)) as [|i t]; [intros H; now inversion H|].
  destruct (closed st i); [intros H; now inversion H|]. destruct (item (eos (sm x))) as [b|]; [|intros H; now inversion H].
  assert (E1 : entries (if b then close st i else st) = entries st) by (destruct b; reflexivity).
  destruct (item (sos (sm x))) as [s|]; [|intros H; now inversion H].
  destruct (entries (if b then close st i else st) i) as [old|].
  - destruct s; [intros H; now inversion H|]. destruct (cat_two old x); intros H; now inversion H.
  - destruct s; intros H; now inversion H.
Qed.

Lemma conforming_snoc l r : conforming l -> existsb ceos l = false -> csos r = match l with [] => true | _ => false end ->
  conforming (l ++ [r]).
Proof.
  intros Hl He Hs k q Hk. destruct (Nat.lt_ge_cases k (length l)) as [Hlt|Hge].
  - rewrite nth_error_app1 in Hk by auto. destruct (Hl k q Hk) as [A B]. split; auto. intros Eq.
    exfalso. assert (existsb ceos l = true).
    { apply existsb_exists. exists q. split; auto. eapply nth_error_In; eauto. } congruence.
  - rewrite nth_error_app2 in Hk by auto. destruct (k - length l) as [|m] eqn:Em; [|destruct m; discriminate].
    cbn in Hk. inversion Hk; subst q. assert (k = length l) by lia. subst k. split.
    + rewrite Hs. destruct l; reflexivity.
    + intros _. rewrite app_length. cbn [length]. lia.
Qed.

(** After a conforming history exactly the chunks that keep it conforming are accepted. *)
Theorem accepts_iff z h (ds : list (delivery V)) st r : Forall wide_enough ds ->
  (forall i, conforming (stream_of i (map delivered ds))) ->
  update new_collector (map (as_input z h) ds) = (st, None) ->
  (conforming (stream_of (cid r) (map delivered ds) ++ [r]) -> exists st', update_unary st (single_tensor h r) = (st', None)) /\
  (~ conforming (stream_of (cid r) (map delivered ds) ++ [r]) ->
     exists st', update_unary st (single_tensor h r) = (st', Some ValueError)).
Proof.
  intros Hw Hc E. rewrite update_feed in E by auto.
  destruct (feed_all h (List.concat (map delivered ds)) new_collector []) as (st0 & E0 & HT).
  { intros i. split; reflexivity. }
  { exact Hc. }
  rewrite E in E0. inversion E0; subst st0. clear E0 E. cbn [app] in HT.
  unfold stream_of. set (l := List.concat (map delivered ds)) in *. fold (of_id (cid r) l). split.
  - intros H. destruct (feed_step h st l r HT) as (st' & Est & _); [|eauto]. rewrite of_id_app. unfold of_id at 2. cbn [filter].
    now rewrite String.eqb_refl.
  - intros H. destruct (HT (cid r)) as [H1 H2].
    destruct (closed st (cid r)) eqn:Ecl; [rewrite reject_closed by auto; eauto|].
    destruct (reject_flags h st r) as (st' & Est & _); eauto. rewrite H1. split.
    + intros Hs. destruct (of_id (cid r) l) as [|f l0] eqn:Eo; [|discriminate]. exfalso. apply H.
      apply conforming_snoc; auto. intros k q Hk. destruct k; discriminate.
    + intros Hn. destruct (csos r) eqn:Es; auto. exfalso. apply H. apply conforming_snoc; auto; [apply Hc|].
      rewrite Es. destruct (of_id (cid r) l); [cbn [merge] in Hn; congruence|reflexivity].
Qed.

End CollectorProofs.

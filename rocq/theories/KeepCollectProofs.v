(** Proofs about collecting outputs only some of which carry chunk indices. *)

From Coq Require Import String List ZArith Bool Lia.
From Coq Require Import ZifyBool.
From Verif Require Import Py Meta MetaSpec MetaProofs MetaLenProofs Pad Conv ConvSpec ConvProofs PadProofs Collector CollectorSpec CollectorProofs.
Import ListNotations.
Open Scope nat_scope.

Section KeepCollect.
Context {V : Type}.
Implicit Types (l : list (chunk V)) (r : chunk V) (st : collector V) (p : list (bool * chunk V)).

Fixpoint feedh st p : collector V * option exn :=
  match p with
  | [] => (st, None)
  | (h, r) :: t => match update_unary st (single_tensor h r) with
                   | (st1, None) => feedh st1 t
                   | q => q
                   end
  end.

Lemma feedh_app : forall p st p2, feedh st (p ++ p2) = match feedh st p with (st1, None) => feedh st1 p2 | q => q end.
Proof.
  induction p as [|[h r] p IH]; intros st p2; simpl; auto.
  destruct (update_unary st (single_tensor h r)) as [st1 [e|]]; auto.
Qed.

Lemma feed_feedh h : forall l st, feed h st l = feedh st (map (fun r => (h, r)) l).
Proof. induction l as [|r l IH]; intros st; simpl; auto. destruct (update_unary _ _) as [st1 [e|]]; auto. Qed.

Definition marked (q : bool * delivery V) : list (bool * chunk V) := map (fun r => (fst q, r)) (delivered (snd q)).

Lemma update_feedh z : forall (qs : list (bool * delivery V)) st, Forall (fun q => wide_enough (snd q)) qs ->
  update st (map (fun q => as_input z (fst q) (snd q)) qs) = feedh st (List.concat (map marked qs)).
Proof.
  induction qs as [|[h d] qs IH]; intros st H; cbn [map update List.concat]; auto. inversion H; subst.
  cbn [fst snd] in *. rewrite update_one_feed, feed_feedh, feedh_app by auto. unfold marked at 1. cbn [fst snd].
  destruct (feedh st (map (fun r => (h, r)) (delivered d))) as [st1 [e|]]; auto.
Qed.

Definition mark_of (i : string) p : list (bool * chunk V) := filter (fun q => String.eqb (cid (snd q)) i) p.

(** All chunks of the stream agree with the first. *)
Definition same_marks (p : list (bool * chunk V)) : Prop := match p with [] => True | (h, _) :: t => Forall (fun q => fst q = h) t end.
Definition first_mark (p : list (bool * chunk V)) : bool := match p with [] => false | (h, _) :: _ => h end.

Lemma mark_of_app i p q : mark_of i (p ++ q) = mark_of i p ++ mark_of i q.
Proof. apply filter_app. Qed.

Lemma mark_of_ids i : forall p, of_id i (map snd p) = map snd (mark_of i p).
Proof. induction p as [|[h r] p IH]; simpl; auto. destruct (String.eqb (cid r) i); simpl; now rewrite IH. Qed.

Definition tracksh st p : Prop := forall i, same_marks (mark_of i p) /\
  entries st i = merge (first_mark (mark_of i p)) (map snd (mark_of i p)) /\ closed st i = existsb ceos (map snd (mark_of i p)).

Lemma cat_two_other h h' f l r x : merge h (f :: l) = Some x -> h <> h' -> cid r = cid f -> csos r = false -> existsb ceos (f :: l) = false ->
  cat_two x (single_tensor h' r) = Err ValueError.
Proof.
  intros Hx Hh Hi Hs He. apply last_not_ending in He. unfold merge in Hx. set (e := last (f :: l) f) in *. clearbody e.
  inversion Hx; subst x. clear Hx.
  unfold cat_two. cbn [sm sd lens zmin fold_left bind]. replace (_ <? _)%Z with false by (unfold zlen; lia).
  cbn [single_tensor sm sd cat_length map chs]. unfold any_ending, any_starting. cbn [eos any_true existsb cat_length_checks sos ids].
  unfold any_starting. cbn [sos any_true existsb]. rewrite He, Hs, Hi. cbn [list_eqb]. rewrite String.eqb_refl. cbn [orb negb andb].
  destruct h, h'; try congruence; reflexivity.
Qed.

Lemma stepped st r : closed st (cid r) = false ->
  exists st1, entries st1 = entries st /\ (forall j, closed st1 j = closed st j || (String.eqb j (cid r) && ceos r)) /\
  forall h, update_unary st (single_tensor h r) =
    match entries st (cid r) with
    | None => if csos r then (store st1 (cid r) (single_tensor h r), None) else (st1, Some ValueError)
    | Some x => if csos r then (st1, Some ValueError)
                else match cat_two x (single_tensor h r) with Ok y => (store st1 (cid r) y, None) | Err e => (st1, Some e) end
    end.
Proof.
  intros Hc. exists (if ceos r then close st (cid r) else st). split; [now destruct (ceos r)|]. split.
  - intros j. destruct (ceos r); cbn [close closed]; [rewrite andb_true_r; apply orb_comm|now rewrite andb_false_r, orb_false_r].
  - intros h. unfold update_unary. cbn [single_tensor sm ids eos sos item]. rewrite Hc.
    replace (entries (if ceos r then close st (cid r) else st)) with (entries st) by now destruct (ceos r). 
    destruct (entries st (cid r)), (csos r); auto.
Qed.

Lemma feedh_step st p h r : tracksh st p -> conforming (of_id (cid r) (map snd p ++ [r])) ->
  if match mark_of (cid r) p with [] => true | _ => Bool.eqb h (first_mark (mark_of (cid r) p)) end
  then exists st', update_unary st (single_tensor h r) = (st', None) /\ tracksh st' (p ++ [(h, r)])
  else exists st', update_unary st (single_tensor h r) = (st', Some ValueError).
Proof.
  intros HT Hc. rewrite of_id_app in Hc. unfold of_id in Hc at 2. cbn [filter] in Hc. rewrite String.eqb_refl in Hc.
  apply conforming_app in Hc as (_ & He & Hs). rewrite mark_of_ids in He, Hs.
  destruct (HT (cid r)) as (Hsm & H1 & H2). rewrite He in H2.
  destruct (stepped st r H2) as (st1 & E1 & E2 & Hup).
  assert (E2' : forall j, closed st1 j = existsb ceos (map snd (mark_of j (p ++ [(h, r)])))).
  { intros j. rewrite mark_of_app, map_app, existsb_app, E2. destruct (HT j) as (_ & _ & ->). f_equal. unfold mark_of. cbn [filter snd].
    rewrite (String.eqb_sym (cid r) j). destruct (String.eqb j (cid r)); cbn; [now rewrite orb_false_r|auto]. }
  assert (Hst : forall y, same_marks (mark_of (cid r) p ++ [(h, r)]) ->
    merge (first_mark (mark_of (cid r) p ++ [(h, r)])) (map snd (mark_of (cid r) p) ++ [r]) = Some y -> tracksh (store st1 (cid r) y) (p ++ [(h, r)])).
  { intros y Hm Hy j. split; [|cbn [store entries closed]; split; [|apply E2']].
    - rewrite mark_of_app. unfold mark_of at 2. cbn [filter snd]. rewrite (String.eqb_sym (cid r) j).
      destruct (String.eqb_spec j (cid r)) as [->|]; [auto|]. rewrite app_nil_r. apply HT.
    - rewrite mark_of_app. unfold mark_of at 2 4. cbn [filter snd]. rewrite (String.eqb_sym (cid r) j).
      destruct (String.eqb_spec j (cid r)) as [->|]; [rewrite map_app; auto|]. rewrite app_nil_r, E1. apply HT. }
  rewrite Hup, H1. destruct (mark_of (cid r) p) as [|[g f] p0] eqn:E; cbn [map snd] in *.
  - cbn [merge]. rewrite Hs. eexists. split; [reflexivity|]. apply Hst; [cbn; auto|]. cbn [app merge last first_mark].
    unfold single_tensor, data_of. cbn [map List.concat]. now rewrite app_nil_r, Hs.
  - cbn [first_mark] in *. rewrite Hs. destruct (merge g (f :: map snd p0)) as [x|] eqn:Ex; [|discriminate].
    assert (Hi : cid r = cid f).
    { assert (Hin : In (g, f) (mark_of (cid r) p)) by (rewrite E; left; auto). apply filter_In in Hin as [_ Hin].
      apply String.eqb_eq in Hin. auto. }
    destruct (Bool.eqb h g) eqn:Eh.
    + apply eqb_prop in Eh. subst h.
      destruct (cat_two_merge g f (map snd p0) r x Ex Hi Hs He) as (y & Hy & Hm).
      rewrite Hy. eexists. split; [reflexivity|]. apply Hst; [|exact Hm].
      cbn [app same_marks] in *. apply Forall_app. split; auto.
    + apply eqb_false_iff in Eh. rewrite (cat_two_other g h f (map snd p0) r x) by auto. eauto.
Qed.

Lemma same_marks_prefix p q : same_marks (p ++ q) -> same_marks p.
Proof. destruct p as [|[h r] p]; simpl; auto. rewrite Forall_app. tauto. Qed.

Lemma feedh_all : forall p2 st p1, tracksh st p1 -> (forall i, conforming (of_id i (map snd (p1 ++ p2)))) ->
  ((forall i, same_marks (mark_of i (p1 ++ p2))) -> exists st', feedh st p2 = (st', None) /\ tracksh st' (p1 ++ p2)) /\
  (~ (forall i, same_marks (mark_of i (p1 ++ p2))) -> exists st', feedh st p2 = (st', Some ValueError)).
Proof.
  induction p2 as [|[h r] p2 IH]; intros st p1 HT Hc; cbn [feedh].
  { rewrite app_nil_r. split; [eauto|]. intros H. exfalso. apply H. intros i. apply HT. }
  pose proof (feedh_step st p1 h r HT) as HS.
  assert (Hc' : conforming (of_id (cid r) (map snd p1 ++ [r]))).
  { specialize (Hc (cid r)). rewrite map_app in Hc. cbn [map snd] in Hc. change (r :: map snd p2) with ([r] ++ map snd p2) in Hc.
    rewrite app_assoc, of_id_app in Hc. now apply conforming_prefix in Hc. }
  specialize (HS Hc').
  replace (p1 ++ (h, r) :: p2) with ((p1 ++ [(h, r)]) ++ p2) in * by now rewrite <- app_assoc.
  destruct (match mark_of (cid r) p1 with [] => true | _ => Bool.eqb h (first_mark (mark_of (cid r) p1)) end) eqn:E.
  - destruct HS as (st1 & -> & HT1). apply IH; auto.
  - destruct HS as (st1 & ->). split; [|eauto]. intros H. exfalso. specialize (H (cid r)). rewrite mark_of_app in H. apply same_marks_prefix in H.
    rewrite mark_of_app in H. unfold mark_of at 2 in H. cbn [filter snd] in H. rewrite String.eqb_refl in H.
    destruct (mark_of (cid r) p1) as [|[g f] p0]; [discriminate|]. cbn [app same_marks first_mark] in *. rewrite Forall_app in H. destruct H as [_ H].
    inversion H; subst. cbn [fst] in *. subst. rewrite eqb_reflx in E. discriminate.
Qed.

Theorem collects_marked z (qs : list (bool * delivery V)) : Forall (fun q => wide_enough (snd q)) qs ->
  (forall i, conforming (stream_of i (map delivered (map snd qs)))) ->
  let p := List.concat (map marked qs) in
  ((forall i, same_marks (mark_of i p)) -> exists st, update new_collector (map (fun q => as_input z (fst q) (snd q)) qs) = (st, None) /\
     forall i, (forall x, entries st i = Some x <-> joined (first_mark (mark_of i p)) (map snd (mark_of i p)) x)) /\
  (~ (forall i, same_marks (mark_of i p)) -> exists st, update new_collector (map (fun q => as_input z (fst q) (snd q)) qs) = (st, Some ValueError)).
Proof.
  intros Hw Hc p. rewrite update_feedh by auto. fold p.
  assert (Ep : map snd p = List.concat (map delivered (map snd qs))).
  { unfold p. rewrite concat_map, !map_map. f_equal. apply map_ext. intros q. unfold marked. rewrite map_map. apply map_id. }
  destruct (feedh_all p new_collector []) as [A B].
  { intros i. repeat split. }
  { intros i. cbn [app]. rewrite Ep. apply Hc. }
  cbn [app] in *. split.
  - intros H. destruct (A H) as (st & E & HT). exists st. split; auto. intros i x. destruct (HT i) as (_ & -> & _). apply merge_joined.
  - exact B.
Qed.

End KeepCollect.

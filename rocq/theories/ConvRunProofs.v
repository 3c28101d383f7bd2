(** Proofs about runs of a streaming convolution. *)

From Coq Require Import String List ZArith Bool Lia.
From Coq Require Import ZifyBool.
From Verif Require Import Py Meta MetaSpec MetaProofs MetaLenProofs MetaSplitProofs MetaBatchProofs Pad Conv ConvSpec ConvProofs.
Import ListNotations.
Open Scope nat_scope.

Section ConvRunProofs.
Context {V : Type}.
Implicit Types (c : conv_cfg V) (st : buffers V) (rs : list (chunk V)).

(* ---------- the post-hook ---------- *)

Lemma fold_set_notin (l : list (string * list V)) : forall st i, ~ In i (map fst l) -> fold_left set_buffer l st i = st i.
Proof.
  induction l as [|[j b] l IH]; intros st i H; auto. simpl in *. rewrite IH by tauto.
  unfold set_buffer. simpl. destruct (String.eqb_spec i j); [subst; tauto|auto].
Qed.

Lemma fold_set_in (l : list (string * list V)) : forall st i b, NoDup (map fst l) -> In (i, b) l -> fold_left set_buffer l st i = Some b.
Proof.
  induction l as [|[j d] l IH]; intros st i b Hnd Hin; [destruct Hin|]. simpl in *. inversion Hnd as [|? ? Hn Hnd']; subst.
  destruct Hin as [E|Hin].
  - inversion E; subst. rewrite fold_set_notin by auto. unfold set_buffer. simpl. now rewrite String.eqb_refl.
  - apply IH; auto.
Qed.

Definition del_step (s : buffers V) (q : string * bool) : buffers V := if snd q then del_buffer s (fst q) else s.

Lemma fold_del (l : list (string * bool)) : forall st i,
  fold_left del_step l st i = if existsb (fun q => snd q && String.eqb i (fst q)) l then None else st i.
Proof.
  induction l as [|[j e] l IH]; intros st i; auto. cbn [fold_left existsb fst snd]. rewrite IH. unfold del_step. cbn [fst snd].
  destruct e; cbn [andb orb]; auto. unfold del_buffer.
  destruct (String.eqb i j); cbn [orb]; auto. now destruct (existsb _ l).
Qed.

Lemma cid_unique rs r1 r2 : NoDup (map cid rs) -> In r1 rs -> In r2 rs -> cid r1 = cid r2 -> r1 = r2.
Proof.
  induction rs as [|r rs IH]; intros Hnd H1 H2 E; [destruct H1|]. simpl in Hnd. inversion Hnd as [|? ? Hn Hnd']; subst.
  destruct H1 as [->|H1], H2 as [->|H2]; auto.
  - exfalso. apply Hn. rewrite E. now apply in_map.
  - exfalso. apply Hn. rewrite <- E. now apply in_map.
Qed.

Lemma temps_keys c rs : incl (map fst (temps c rs)) (map cid rs).
Proof.
  unfold temps. destruct (_ && _); [|intros x []]. intros x Hx. apply in_map_iff in Hx as ((i & b) & <- & Hx).
  apply in_flat_map in Hx as (r & Hr & Hx). destruct (ceos r); [destruct Hx|]. destruct Hx as [E|[]]. inversion E; subst. cbn [fst]. now apply in_map.
Qed.

Lemma temps_nodup c rs : NoDup (map cid rs) -> NoDup (map fst (temps c rs)).
Proof.
  intros H. unfold temps. destruct (_ && _); [|constructor]. induction rs as [|r rs IH]; [constructor|].
  simpl in *. inversion H as [|? ? Hn Hnd]; subst. destruct (ceos r); simpl; auto. constructor; auto.
  intros Hin. apply Hn. clear - Hin. induction rs as [|q rs IH]; simpl in *; auto. destruct (ceos q); simpl in *; auto. intuition.
Qed.

Definition after c st (r : chunk V) : option (list V) :=
  if ceos r then None else if 1 <? kspan c then Some (leftover c (padded c (prepended st r))) else st (cid r).

Lemma post_hook_eq c st (m : meta) rs : NoDup (map cid rs) -> ids m = map cid rs -> eos m = map ceos rs ->
  (forall r, In r rs -> post_hook st m (temps c (map (prepended st) rs)) (cid r) = after c st r) /\
  (forall i, ~ In i (map cid rs) -> post_hook st m (temps c (map (prepended st) rs)) i = st i).
Proof.
  intros Hnd Hi He. unfold post_hook. rewrite Hi, He, zip_map_l. fold del_step.
  assert (Hk : map cid (map (prepended st) rs) = map cid rs) by (rewrite map_map; reflexivity).
  split.
  - intros r Hr. rewrite fold_del. unfold after. destruct (ceos r) eqn:Ee.
    + replace (existsb _ _) with true; auto. symmetry. apply existsb_exists. exists (cid r, true). split.
      * apply in_map_iff. exists r. rewrite Ee. auto.
      * simpl. apply String.eqb_refl.
    + replace (existsb _ _) with false.
      * destruct (1 <? kspan c) eqn:Ek.
        -- apply fold_set_in; [apply temps_nodup; now rewrite Hk|]. unfold temps. rewrite Ek.
           replace (forallb ceos (map (prepended st) rs)) with false.
           ++ cbn [andb negb]. apply in_flat_map. exists (prepended st r). split; [now apply in_map|].
              change (ceos (prepended st r)) with (ceos r). rewrite Ee. left. reflexivity.
           ++ symmetry. apply not_true_iff_false. rewrite forallb_forall. intros H.
              specialize (H (prepended st r) (in_map _ _ _ Hr)). simpl in H. congruence.
        -- unfold temps. rewrite Ek. reflexivity.
      * symmetry. apply not_true_iff_false. intros H. apply existsb_exists in H as ((i & e) & Hin & H).
        apply in_map_iff in Hin as (q & Eq & Hq). inversion Eq; subst. simpl in H. apply andb_true_iff in H as [H1 H2].
        apply String.eqb_eq in H2. assert (r = q) by (eapply cid_unique; eauto). subst. congruence.
  - intros i Hn. rewrite fold_del. replace (existsb _ _) with false.
    + apply fold_set_notin. intros H. apply Hn. rewrite <- Hk. eapply temps_keys; eauto.
    + symmetry. apply not_true_iff_false. intros H. apply existsb_exists in H as ((j & e) & Hin & H).
      apply in_map_iff in Hin as (q & Eq & Hq). inversion Eq; subst. simpl in H. apply andb_true_iff in H as [H1 H2].
      apply String.eqb_eq in H2. apply Hn. rewrite H2. now apply in_map.
Qed.

(* ---------- one call against the specification ---------- *)

Lemma consumed_le c (A : list V) : valid_cfg c -> strd c <= kspan c -> nwin c (length A) * strd c <= length A.
Proof.
  intros Hv Hs. destruct (nwin c (length A)) as [|k] eqn:E; [lia|].
  assert (Hk : k < nwin c (length A)) by lia. apply nwin_lt in Hk; auto. nia.
Qed.

Lemma conv_seq_app c (A X : list V) : valid_cfg c -> strd c <= kspan c ->
  conv_seq c (A ++ X) = conv_seq c A ++ conv_seq c (leftover c A ++ X).
Proof. intros. now apply conv_split. Qed.

Lemma skipn_app_le {A} n (l1 l2 : list A) : n <= length l1 -> skipn n (l1 ++ l2) = skipn n l1 ++ l2.
Proof. intros H. rewrite skipn_app. replace (n - length l1) with 0 by lia. reflexivity. Qed.

Lemma leftover_app c (A X : list V) : valid_cfg c -> strd c <= kspan c ->
  leftover c (leftover c A ++ X) = leftover c (A ++ X).
Proof.
  intros Hv Hs. pose proof (consumed_le c A Hv Hs) as Hle.
  unfold leftover at 2. unfold leftover at 2. rewrite <- skipn_app_le by auto.
  set (m := nwin c (length A)) in *. unfold leftover at 1. rewrite skipn_skipn, skipn_length. unfold leftover.
  f_equal. rewrite (nwin_add c (length (A ++ X)) m); auto.
  - lia.
  - rewrite app_length. lia.
  - apply nwin_le; auto. rewrite app_length. lia.
Qed.

Lemma leftover_length c (A : list V) : valid_cfg c -> strd c <= kspan c -> length (leftover c A) < kspan c.
Proof.
  intros Hv Hs. unfold leftover. rewrite skipn_length.
  destruct (Nat.lt_ge_cases (length A - nwin c (length A) * strd c) (kspan c)) as [|H]; auto.
  exfalso. assert (nwin c (length A) < nwin c (length A)); [|lia]. apply nwin_lt; auto.
  pose proof (consumed_le c A Hv Hs). lia.
Qed.

Lemma leftover_nonempty c (A : list V) : valid_cfg c -> strd c < kspan c -> A <> [] -> leftover c A <> [].
Proof.
  intros Hv Hs HA E. assert (H : length (leftover c A) = 0) by now rewrite E.
  unfold leftover in H. rewrite skipn_length in H.
  destruct (nwin c (length A)) as [|k] eqn:En.
  - destruct A; [congruence|simpl in H; lia].
  - assert (Hk : k < nwin c (length A)) by lia. apply nwin_lt in Hk; auto. nia.
Qed.

Lemma leftover_k1 c (A : list V) : valid_cfg c -> strd c <= kspan c -> kspan c <= 1 -> leftover c A = [].
Proof. intros Hv Hs Hk. pose proof (leftover_length c A Hv Hs). destruct (leftover c A); auto. simpl in H. lia. Qed.

Lemma conv_seq_nil_iff c (l : list V) : valid_cfg c -> (conv_seq c l = [] <-> length l < kspan c).
Proof.
  intros Hv. split.
  - intros E. assert (H : length (conv_seq c l) = 0) by now rewrite E. rewrite conv_seq_length in H.
    destruct (Nat.lt_ge_cases (length l) (kspan c)); auto. assert (0 < nwin c (length l)) by (apply nwin_lt; auto; lia). lia.
  - intros H. unfold conv_seq, nwin. replace (length l <? kspan c) with true by lia. reflexivity.
Qed.

(** The streams' received data, None for streams that are not running. *)
Definition pasts : Type := string -> option (list V).

Definition matches c st (past : pasts) : Prop :=
  forall i, st i = if 1 <? kspan c then option_map (leftover c) (past i) else None.

Definition is_some {A} (o : option A) : bool := match o with Some _ => true | None => false end.

Definition advance c (past : pasts) rs : pasts := fun i =>
  match find (fun r => String.eqb (cid r) i) rs with
  | Some r => if ceos r then None else Some (received c (so_far (past i)) r)
  | None => past i
  end.

(** Streams that go on are running; those that start are not, unless the whole batch starts. *)
Definition in_step (past : pasts) rs : Prop := forall r, In r rs ->
  (csos r = false -> past (cid r) <> None) /\
  (csos r = true -> past (cid r) = None \/ forall q, In q rs -> csos q = true).

Lemma find_cid rs r : NoDup (map cid rs) -> In r rs -> find (fun q => String.eqb (cid q) (cid r)) rs = Some r.
Proof.
  intros Hnd Hr. destruct (find _ rs) as [q|] eqn:E.
  - apply find_some in E as [Hq E]. apply String.eqb_eq in E. f_equal. eapply cid_unique; eauto.
  - exfalso. pose proof (find_none _ _ E r Hr) as H. cbv beta in H. now rewrite String.eqb_refl in H.
Qed.

Lemma find_cid_none rs i : ~ In i (map cid rs) -> find (fun q => String.eqb (cid q) i) rs = None.
Proof.
  intros H. destruct (find _ rs) as [q|] eqn:E; auto. apply find_some in E as [Hq E]. apply String.eqb_eq in E.
  exfalso. apply H. rewrite <- E. now apply in_map.
Qed.

Definition emit c (past : pasts) (r : chunk V) : chunk V := set_data r (due c (so_far (past (cid r))) r).

Lemma matches_ok c st past rs : valid_cfg c -> strd c <= kspan c -> matches c st past -> in_step past rs -> st_ok c st rs.
Proof.
  intros Hv Hs Hm Hin r Hr. destruct (Hin r Hr) as [H1 H2]. rewrite (Hm (cid r)). destruct (1 <? kspan c) eqn:Ek.
  - split; intros Hsos.
    + destruct (H2 Hsos) as [->|]; auto.
    + specialize (H1 Hsos). destruct (past (cid r)); simpl; congruence.
  - split; auto. intros _. unfold held. rewrite (Hm (cid r)), Ek. reflexivity.
Qed.

Lemma held_past c st past (r : chunk V) : valid_cfg c -> strd c <= kspan c -> matches c st past ->
  held st (cid r) = match past (cid r) with Some A => leftover c A | None => [] end.
Proof.
  intros Hv Hs Hm. unfold held. rewrite (Hm (cid r)). destruct (1 <? kspan c) eqn:Ek.
  - now destruct (past (cid r)).
  - destruct (past (cid r)); auto. symmetry. apply leftover_k1; auto. lia.
Qed.

Lemma padded_past c st past (r : chunk V) : valid_cfg c -> strd c <= kspan c -> matches c st past ->
  (csos r = false -> past (cid r) <> None) ->
  conv_seq c (padded c (prepended st r)) = due c (so_far (past (cid r))) r /\
  leftover c (padded c (prepended st r)) = leftover c (received c (so_far (past (cid r))) r).
Proof.
  intros Hv Hs Hm Hsos. unfold padded, prepended. cbn [set_data csos cdat ceos]. unfold due, received.
  rewrite (held_past c st past r) by auto. destruct (csos r); [cbn [app skipn]; auto|].
  specialize (Hsos eq_refl). destruct (past (cid r)) as [A|]; [|congruence]. cbn [so_far].
  cbn [app]. rewrite <- !app_assoc. split.
  - rewrite (conv_seq_app c A) by auto. rewrite <- (conv_seq_length c A), skipn_app, skipn_all, Nat.sub_diag. reflexivity.
  - now apply leftover_app.
Qed.

Definition jam c (past : pasts) rs : Prop :=
  1 < kspan c /\ (exists r, In r rs /\ csos r = true) /\
  (exists r, In r rs /\ csos r = false) /\
  (forall r, In r rs -> csos r = false -> leftover c (so_far (past (cid r))) = []).

Definition starved c (past : pasts) rs : Prop := forall r, In r rs -> due c (so_far (past (cid r))) r = [].

Inductive outcome c (past : pasts) (t : tens V) : res (batch V * buffers V) -> Prop :=
| OStuck : jam c past (trows t) -> outcome c past t (Err TypeError)
| OStarved : ~ jam c past (trows t) -> starved c past (trows t) -> outcome c past t (Err RuntimeError)
| OOk : forall w' h' st', ~ jam c past (trows t) -> (tight t -> ~ starved c past (trows t)) -> (h' = true -> th t = true) ->
    longest (map (emit c past) (trows t)) <= w' ->
    (tight t -> w' = longest (map (emit c past) (trows t))) ->
    matches c st' (advance c past (trows t)) ->
    outcome c past t (Ok (tensor_of (zout c) (mkTens w' h' (map (emit c past) (trows t))), st')).

Lemma fits_roomy c t : fits c t -> roomy c (tw t) (trows t).
Proof.
  intros [_ H] Hp Hs He. rewrite forallb_forall in Hs.
  destruct H as (r & Hr & Hw); auto.
  - apply not_true_iff_false in He. rewrite forallb_forall in He.
    destruct (existsb (fun r => negb (ceos r)) (trows t)) eqn:Ex.
    + apply existsb_exists in Ex as (r & Hr & E). exists r. split; auto. now apply negb_true_iff.
    + exfalso. apply He. intros r Hr. destruct (ceos r) eqn:E; auto.
      assert (existsb (fun r => negb (ceos r)) (trows t) = true) by (apply existsb_exists; exists r; rewrite E; auto). congruence.
  - pose proof (plen_ge c _ _ Hr) as G. rewrite padded_length, (Hs r Hr) in G. lia.
Qed.

Lemma tight_fits c t : trows t <> [] -> tight t -> fits c t.
Proof.
  intros Hne Ht. split; [unfold tight in Ht; lia|]. intros _ Hs _.
  destruct (lmax_ex (fun r => length (cdat r)) (trows t) Hne) as (r & Hr & E). exists r. split; auto.
  unfold tight in Ht. rewrite longest_lmax, E in Ht. lia.
Qed.

Lemma call_step c st past t : valid_cfg c -> strd c <= kspan c -> good_batch (trows t) -> fits c t ->
  matches c st past -> in_step past (trows t) ->
  outcome c past t (conv_call c st (tensor_of (zin c) t)).
Proof.
  intros Hv Hs (Hne & Hnd & Hfl) Hfit Hm Hin. pose proof (fits_roomy c t Hfit) as Hroom. destruct Hfit as [Hlw _].
  set (rs := trows t) in *.
  pose proof (matches_ok c st past rs Hv Hs Hm Hin) as Hok.
  assert (Hj : stuck c st rs <-> jam c past rs).
  { assert (E : forall r, In r rs -> csos r = false -> held st (cid r) = leftover c (so_far (past (cid r)))).
    { intros r Hr Hsr. rewrite (held_past c st past r) by auto. pose proof (proj1 (Hin r Hr) Hsr) as G.
      destruct (past (cid r)); simpl in *; congruence. }
    split; intros (H1 & H2 & H3 & H4); (split; [auto|split; [auto|split; [auto|]]]); intros r Hr Hsr.
    - rewrite <- E; auto.
    - rewrite E; auto. }
  assert (Hne' : map (prepended st) rs <> []) by (intros E; apply map_eq_nil in E; congruence).
  assert (Hp : plen c (map (prepended st) rs) < kspan c <-> starved c past rs).
  { unfold plen, lmax. rewrite map_map.
    fold (lmax (fun r => length (padded c (prepended st r))) rs).
    split.
    - intros H r Hr. destruct (padded_past c st past r Hv Hs Hm (proj1 (Hin r Hr))) as [<- _]. apply conv_seq_nil_iff; auto.
      pose proof (lmax_ge (fun r => length (padded c (prepended st r))) rs r Hr) as G. cbv beta in G. lia.
    - intros H. destruct (lmax_ex (fun r => length (padded c (prepended st r))) rs Hne) as (r & Hr & ->).
      apply conv_seq_nil_iff; auto. destruct (padded_past c st past r Hv Hs Hm (proj1 (Hin r Hr))) as [-> _]. now apply H. }
  unfold conv_call. change (tensor_of (zin c) t) with (batch_with (zin c) (tw t) (th t) rs).
  destruct (pre_hook_eq c st (tw t) (th t) rs Hv Hne Hlw Hroom Hfl Hok) as [[H1 ->]|[H1 (w' & h' & Hh & Hlw' & Hroom' & Htight & ->)]];
    cbn [bind].
  { apply OStuck. now apply Hj. }
  rewrite conv1d_batch by auto.
  assert (Eout : map (convolved c) (map (prepended st) rs) = map (emit c past) rs).
  { rewrite map_map. apply map_ext_in. intros r Hr. unfold convolved, emit.
    destruct (padded_past c st past r Hv Hs Hm (proj1 (Hin r Hr))) as [-> _]. reflexivity. }
  pose proof (cwidth_ge c w' _ Hne' Hlw') as Hcw.
  destruct (cwidth c w' (map (prepended st) rs) <? kspan c) eqn:Ep; cbn [bind].
  { apply OStarved; fold rs; [now rewrite <- Hj|apply Hp; lia]. }
  rewrite Eout.
  change (batch_with (zout c) (nwin c (cwidth c w' (map (prepended st) rs))) h' (map (emit c past) rs))
    with (tensor_of (zout c) (mkTens (nwin c (cwidth c w' (map (prepended st) rs))) h' (map (emit c past) (trows t)))).
  apply OOk; auto.
  - fold rs. now rewrite <- Hj.
  - intros Ht. change (trows t) with rs. rewrite <- Hp. specialize (Htight Ht). rewrite Htight in Ep. rewrite cwidth_tight in Ep by auto. lia.
  - change (trows t) with rs. rewrite <- Eout. rewrite longest_convolved by auto. apply nwin_le; auto.
  - intros Ht. specialize (Htight Ht). change (trows t) with rs. rewrite <- Eout. rewrite longest_convolved by auto.
    rewrite Htight. now rewrite cwidth_tight.
  - intros i. set (m := bm _). change (trows t) with rs. destruct (in_dec string_dec i (map cid rs)) as [Hi|Hi].
    + apply in_map_iff in Hi as (r & <- & Hr). unfold advance. rewrite find_cid by auto.
      destruct (post_hook_eq c st m rs Hnd) as [G _].
      { cbn. rewrite !map_map. reflexivity. } { cbn. rewrite !map_map. reflexivity. }
      rewrite G by auto. unfold after. destruct (ceos r) eqn:Ee; [now destruct (1 <? kspan c)|].
      destruct (1 <? kspan c) eqn:Ek.
      * cbn [option_map]. f_equal. exact (proj2 (padded_past c st past r Hv Hs Hm (proj1 (Hin r Hr)))).
      * rewrite (Hm (cid r)), Ek. reflexivity.
    + destruct (post_hook_eq c st m rs Hnd) as [_ G].
      { cbn. rewrite !map_map. reflexivity. } { cbn. rewrite !map_map. reflexivity. }
      rewrite G by auto. unfold advance. rewrite find_cid_none by auto. apply Hm.
Qed.

(* ---------- runs ---------- *)

Lemma filter_cid rs i : NoDup (map cid rs) ->
  filter (fun r => String.eqb (cid r) i) rs = match find (fun r => String.eqb (cid r) i) rs with Some r => [r] | None => [] end.
Proof.
  induction rs as [|r rs IH]; intros Hnd; auto. simpl in *. inversion Hnd as [|? ? Hn Hnd']; subst.
  destruct (String.eqb_spec (cid r) i) as [He|He]; [|auto]. f_equal.
  rewrite IH by auto. rewrite <- He. now rewrite find_cid_none.
Qed.

Lemma stream_of_cons i rs (l : list (list (chunk V))) :
  stream_of i (rs :: l) = filter (fun r => String.eqb (cid r) i) rs ++ stream_of i l.
Proof. unfold stream_of. simpl. apply filter_app. Qed.

Definition on_protocol (past : pasts) (sched : list (list (chunk V))) : Prop :=
  forall i, protocol (is_some (past i)) (stream_of i sched).

(** Every batch in step. *)
Fixpoint on_course c (past : pasts) (sched : list (list (chunk V))) : Prop :=
  match sched with
  | [] => True
  | rs :: t => in_step past rs /\ on_course c (advance c past rs) t
  end.

Lemma protocol_step c past rs sched : NoDup (map cid rs) -> on_protocol past (rs :: sched) ->
  in_step past rs /\ on_protocol (advance c past rs) sched.
Proof.
  intros Hnd H. split.
  - intros r Hr. specialize (H (cid r)). rewrite stream_of_cons, filter_cid, find_cid in H by auto. simpl in H.
    destruct H as [H _]. destruct (csos r), (past (cid r)); simpl in H; try discriminate; split; intros; auto; discriminate.
  - intros i. specialize (H i). rewrite stream_of_cons, filter_cid in H by auto. unfold advance.
    destruct (find (fun r => String.eqb (cid r) i) rs) as [r|]; auto. simpl in H. destruct H as [_ H].
    now destruct (ceos r).
Qed.

Lemma protocol_course c : forall sched past, Forall good_batch sched -> on_protocol past sched -> on_course c past sched.
Proof.
  induction sched as [|rs sched IH]; intros past Hg Hp; simpl; auto.
  inversion Hg as [|? ? (_ & Hnd & _) Hg2]; subst. destruct (protocol_step c past rs sched Hnd Hp). auto.
Qed.

Lemma pending_step c past rs sched i : NoDup (map cid rs) ->
  pending c (past i) (stream_of i (rs :: sched)) = pending c (advance c past rs i) (stream_of i sched).
Proof.
  intros Hnd. rewrite stream_of_cons, filter_cid by auto. unfold advance.
  now destruct (find (fun r => String.eqb (cid r) i) rs).
Qed.

Lemma ideal_step c past rs sched i : NoDup (map cid rs) ->
  ideal c (so_far (past i)) (stream_of i (rs :: sched))
  = filter (fun r => String.eqb (cid r) i) (map (emit c past) rs) ++ ideal c (so_far (advance c past rs i)) (stream_of i sched).
Proof.
  intros Hnd. rewrite stream_of_cons, !filter_cid; auto.
  2:{ rewrite map_map. exact Hnd. }
  unfold advance.
  assert (F : find (fun r => String.eqb (cid r) i) (map (emit c past) rs)
            = option_map (emit c past) (find (fun r => String.eqb (cid r) i) rs)).
  { clear. induction rs as [|r rs IH]; auto. simpl. destruct (String.eqb (cid r) i); auto. }
  rewrite F. destruct (find (fun r => String.eqb (cid r) i) rs) as [r|] eqn:E; cbn [option_map]; auto.
  apply find_some in E as [_ E]. apply String.eqb_eq in E. cbn [app ideal]. unfold emit. rewrite E. f_equal. 
  now destruct (ceos r).
Qed.

Lemma pending_app c past (l1 l2 : list (chunk V)) : pending c past (l1 ++ l2) = pending c (pending c past l1) l2.
Proof. revert past. induction l1; intros; simpl; auto. Qed.

(** The run, batch by batch, on the specification side. *)
Fixpoint spec_run c (past : pasts) (sched : list (list (chunk V))) : list (list (chunk V)) :=
  match sched with
  | [] => []
  | rs :: t => map (emit c past) rs :: spec_run c (advance c past rs) t
  end.

Lemma spec_run_stream c i : forall sched past, Forall good_batch sched ->
  stream_of i (spec_run c past sched) = ideal c (so_far (past i)) (stream_of i sched).
Proof.
  induction sched as [|rs sched IH]; intros past H; [reflexivity|]. inversion H as [|? ? (_ & Hnd & _) H']; subst.
  cbn [spec_run]. rewrite stream_of_cons, IH, ideal_step by auto. reflexivity.
Qed.

Lemma spec_run_follows c : forall sched past, Forall2 (Forall2 follows) sched (spec_run c past sched).
Proof.
  induction sched as [|rs sched IH]; intros past; simpl; constructor; auto.
  clear. induction rs; simpl; constructor; auto. repeat split.
Qed.

Definition relabelled (t u : tens V) : Prop := (th u = true -> th t = true) /\ longest (trows u) <= tw u /\ (tight t -> tight u).

Lemma run_refines c : valid_cfg c -> strd c <= kspan c -> forall sched st past ys st',
  Forall good_batch (map trows sched) -> Forall (fits c) sched -> on_course c past (map trows sched) -> matches c st past ->
  conv_run c st (map (tensor_of (zin c)) sched) = Ok (ys, st') ->
  exists outs, ys = map (tensor_of (zout c)) outs /\ Forall2 relabelled sched outs /\
    map trows outs = spec_run c past (map trows sched) /\
    matches c st' (fun i => pending c (past i) (stream_of i (map trows sched))).
Proof.
  intros Hv Hs. induction sched as [|t sched IH]; intros st past ys st' Hg Hf Hp Hm Hrun.
  - simpl in Hrun. inversion Hrun; subst. exists []. repeat split; auto.
  - cbn [map] in *. inversion Hg as [|? ? Hg1 Hg2]; subst. inversion Hf as [|? ? Hf1 Hf2]; subst.
    pose proof Hg1 as (_ & Hnd & _). destruct Hp as [Hin Hp2].
    cbn [conv_run] in Hrun. pose proof (call_step c st past t Hv Hs Hg1 Hf1 Hm Hin) as Hstep.
    destruct Hstep as [| |w' h' st1 Hj Hst Hh Hlw Htt Hm1]; cbn [bind] in Hrun; try discriminate.
    destruct (conv_run c st1 (map (tensor_of (zin c)) sched)) as [[ys2 st2]|] eqn:E; cbn [bind] in Hrun; [|discriminate].
    inversion Hrun; subst. destruct (IH _ _ _ _ Hg2 Hf2 Hp2 Hm1 E) as (outs & -> & HF & Hs2 & Hm2).
    eexists (mkTens w' h' (map (emit c past) (trows t)) :: outs). cbn [map spec_run]. split; [reflexivity|]. split; [|split].
    + constructor; auto. repeat split; auto.
    + now rewrite Hs2.
    + intros i. rewrite (Hm2 i). now rewrite pending_step.
Qed.

Lemma run_total c : valid_cfg c -> strd c <= kspan c -> forall sched st past,
  Forall good_batch (map trows sched) -> Forall (fits c) sched -> on_course c past (map trows sched) -> matches c st past ->
  (forall k t, nth_error sched k = Some t ->
     let now := fun i => pending c (past i) (stream_of i (map trows (firstn k sched))) in
     ~ jam c now (trows t) /\ ~ starved c now (trows t)) ->
  exists ys st', conv_run c st (map (tensor_of (zin c)) sched) = Ok (ys, st').
Proof.
  intros Hv Hs. induction sched as [|t sched IH]; intros st past Hg Hf Hp Hm H.
  - simpl. eauto.
  - cbn [map] in *. inversion Hg as [|? ? Hg1 Hg2]; subst. inversion Hf as [|? ? Hf1 Hf2]; subst.
    pose proof Hg1 as (_ & Hnd & _). destruct Hp as [Hin Hp2].
    cbn [conv_run]. pose proof (call_step c st past t Hv Hs Hg1 Hf1 Hm Hin) as Hstep.
    destruct (H 0 t eq_refl) as [H1 H2]. cbn [firstn map stream_of List.concat filter pending] in H1, H2.
    destruct Hstep as [| |w' h' st1 Hj Hst Hh Hlw Htt Hm1]; cbn [bind]; try (exfalso; tauto).
    destruct (IH st1 _ Hg2 Hf2 Hp2 Hm1) as (ys2 & st2 & ->).
    { intros k u Hk. specialize (H (S k) u Hk). cbv zeta in *. cbn [firstn map] in H.
      assert (E : forall i, pending c (past i) (stream_of i (trows t :: map trows (firstn k sched)))
                = pending c (advance c past (trows t) i) (stream_of i (map trows (firstn k sched)))).
      { intros i. now apply pending_step. }
      unfold jam, starved in *. setoid_rewrite E in H. exact H. }
    cbn [bind]. eauto.
Qed.

(** The converse for tight tensors. *)
Lemma run_only c : valid_cfg c -> strd c <= kspan c -> forall sched st past ys st',
  Forall good_batch (map trows sched) -> Forall tight sched -> on_course c past (map trows sched) -> matches c st past ->
  conv_run c st (map (tensor_of (zin c)) sched) = Ok (ys, st') ->
  forall k t, nth_error sched k = Some t ->
     let now := fun i => pending c (past i) (stream_of i (map trows (firstn k sched))) in
     ~ jam c now (trows t) /\ ~ starved c now (trows t).
Proof.
  intros Hv Hs. induction sched as [|t sched IH]; intros st past ys st' Hg Hf Hp Hm Hrun k u Hk; [now destruct k|].
  cbn [map] in *. inversion Hg as [|? ? Hg1 Hg2]; subst. inversion Hf as [|? ? Hf1 Hf2]; subst.
  pose proof Hg1 as (Hne & Hnd & _). destruct Hp as [Hin Hp2].
  cbn [conv_run] in Hrun. pose proof (call_step c st past t Hv Hs Hg1 (tight_fits c t Hne Hf1) Hm Hin) as Hstep.
  destruct Hstep as [| |w' h' st1 Hj Hst Hh Hlw Htt Hm1]; cbn [bind] in Hrun; try discriminate.
  destruct (conv_run c st1 (map (tensor_of (zin c)) sched)) as [[ys2 st2]|] eqn:E; cbn [bind] in Hrun; [|discriminate].
  destruct k as [|k].
  - inversion Hk; subst. cbv zeta. cbn [firstn map stream_of List.concat filter pending]. auto.
  - cbn [nth_error] in Hk. specialize (IH _ _ _ _ Hg2 Hf2 Hp2 Hm1 E k u Hk). cbv zeta in *. cbn [firstn map].
    assert (E2 : forall i, pending c (past i) (stream_of i (trows t :: map trows (firstn k sched)))
                = pending c (advance c past (trows t) i) (stream_of i (map trows (firstn k sched)))).
    { intros i. now apply pending_step. }
    unfold jam, starved in *. setoid_rewrite E2. exact IH.
Qed.

End ConvRunProofs.

(** Per-stream consequences of the run theorem. *)

From Coq Require Import String List ZArith Bool Lia.
From Coq Require Import ZifyBool.
From Verif Require Import Py Meta MetaSpec MetaProofs MetaLenProofs MetaSplitProofs MetaBatchProofs Pad Conv ConvSpec ConvProofs ConvRunProofs.
Import ListNotations.
Open Scope nat_scope.

Section ConvStreamProofs.
Context {V : Type}.
Implicit Types (c : conv_cfg V) (l : list (chunk V)).

Lemma data_of_app l1 l2 : data_of (l1 ++ l2) = data_of l1 ++ data_of l2.
Proof. unfold data_of. now rewrite map_app, concat_app. Qed.

Lemma data_of_cons r l : data_of (r :: l) = cdat r ++ data_of l.
Proof. reflexivity. Qed.

Lemma ideal_app c l2 : forall l1 o, ideal c (so_far o) (l1 ++ l2) = ideal c (so_far o) l1 ++ ideal c (so_far (pending c o l1)) l2.
Proof.
  induction l1 as [|r l1 IH]; intros o; auto. cbn [app ideal pending]. f_equal.
  destruct (ceos r).
  - exact (IH None).
  - exact (IH (Some (received c (so_far o) r))).
Qed.

Lemma ideal_length c : forall l past, length (ideal c past l) = length l.
Proof. induction l; intros; simpl; auto. Qed.

Lemma ideal_follows c : forall l past, Forall2 follows l (ideal c past l).
Proof. induction l; intros; simpl; constructor; auto. repeat split. Qed.

Lemma skipn_nwin c (A X : list V) : valid_cfg c -> strd c <= kspan c ->
  skipn (nwin c (length A)) (conv_seq c (A ++ X)) = conv_seq c (leftover c A ++ X).
Proof.
  intros. rewrite conv_seq_app by auto. rewrite <- (conv_seq_length c A), skipn_app, skipn_all, Nat.sub_diag. reflexivity.
Qed.

Lemma due_step c (A X Y : list V) : valid_cfg c -> strd c <= kspan c ->
  skipn (nwin c (length A)) (conv_seq c (A ++ X)) ++ skipn (nwin c (length (A ++ X))) (conv_seq c ((A ++ X) ++ Y))
  = skipn (nwin c (length A)) (conv_seq c (A ++ X ++ Y)).
Proof.
  intros Hv Hs. rewrite app_assoc. rewrite (conv_seq_app c (A ++ X) Y) by auto.
  rewrite <- (conv_seq_length c (A ++ X)), skipn_app, skipn_all, Nat.sub_diag. simpl.
  rewrite skipn_app_le; auto. rewrite conv_seq_length. apply nwin_le; auto. rewrite app_length. lia.
Qed.

(** Chunks in the middle of a stream. *)
Definition inner l : Prop := forall r, In r l -> csos r = false /\ ceos r = false.

Lemma inner_ideal c : valid_cfg c -> strd c <= kspan c -> forall l A, inner l ->
  data_of (ideal c A l) = skipn (nwin c (length A)) (conv_seq c (A ++ data_of l)) /\
  pending c (Some A) l = Some (A ++ data_of l).
Proof.
  intros Hv Hs. induction l as [|r l IH]; intros A Hin.
  - simpl. rewrite app_nil_r. split; auto. rewrite <- conv_seq_length, skipn_all. reflexivity.
  - destruct (Hin r) as [H1 H2]; [now left|]. cbn [ideal pending]. rewrite H2.
    assert (E : received c (so_far (Some A)) r = A ++ cdat r) by (unfold received; rewrite H1, H2, app_nil_r; reflexivity).
    unfold so_far in E. rewrite E. destruct (IH (A ++ cdat r)) as [I1 I2]; [intros x Hx; apply Hin; now right|].
    cbn [so_far]. rewrite E, I2. rewrite !data_of_cons. cbn [set_data cdat]. rewrite I1. unfold due. rewrite H1, E.
    rewrite due_step by auto. rewrite app_assoc. auto.
Qed.

Lemma nth_error_in_range {A} (l : list A) x : In x l -> exists k, k < length l /\ nth_error l k = Some x.
Proof. intros H. apply In_nth_error in H as (k & Hk). exists k. split; auto. apply nth_error_Some. congruence. Qed.

Lemma complete_shape l : complete l ->
  (exists r, l = [r] /\ csos r = true /\ ceos r = true) \/
  (exists r m e, l = r :: m ++ [e] /\ csos r = true /\ ceos r = false /\ inner m /\ csos e = false /\ ceos e = true).
Proof.
  intros [Hne H]. destruct l as [|r t]; [congruence|]. destruct t as [|x t].
  - left. exists r. destruct (H 0 r eq_refl) as [H1 H2]. auto.
  - right. destruct (@exists_last _ (x :: t)) as (m & e & E); [discriminate|]. rewrite E in *.
    exists r, m, e. split; auto. 
    assert (HL : length (r :: m ++ [e]) = S (S (length m))) by (simpl; rewrite app_length; simpl; lia).
    destruct (H 0 r eq_refl) as [H1 H2].
    destruct (H (S (length m)) e) as [H3 H4]; [simpl; now rewrite nth_error_app2, Nat.sub_diag by lia|].
    rewrite HL in *.
    assert (Hm : inner m).
    { intros q Hq. apply nth_error_in_range in Hq as (k & Hk & Hn).
      destruct (H (S k) q) as [H5 H6]; [simpl; now rewrite nth_error_app1|]. rewrite H5, H6. split; lia. }
    rewrite H1, H2, H3, H4. repeat split; auto; try lia; now apply Hm.
Qed.

Lemma running_shape l : running l -> exists r m, l = r :: m /\ csos r = true /\ ceos r = false /\ inner m.
Proof.
  intros [Hne H]. destruct l as [|r m]; [congruence|]. exists r, m. destruct (H 0 r eq_refl) as [H1 H2].
  repeat split; auto; apply nth_error_in_range in H0 as (k & Hk & Hn); destruct (H (S k) r0 Hn); auto.
Qed.

Lemma complete_ideal c l past : valid_cfg c -> strd c <= kspan c -> complete l ->
  data_of (ideal c past l) = offline c (data_of l).
Proof.
  intros Hv Hs Hc. destruct (complete_shape l Hc) as [(r & -> & H1 & H2)|(r & m & e & -> & H1 & H2 & Hm & H3 & H4)].
  - cbn [ideal]. unfold data_of. simpl. unfold due, received. rewrite H1, H2. cbn [skipn]. now rewrite !app_nil_r.
  - cbn [ideal]. rewrite H2.
    assert (E : received c past r = zeros c ++ cdat r) by (unfold received; rewrite H1, H2, app_nil_r; reflexivity).
    rewrite E. change (zeros c ++ cdat r) with (so_far (Some (zeros c ++ cdat r))) at 1. rewrite ideal_app.
    destruct (inner_ideal c Hv Hs m (zeros c ++ cdat r) Hm) as [I1 I2]. rewrite I2. cbn [so_far ideal].
    rewrite data_of_cons, !data_of_app, data_of_cons. cbn [set_data cdat]. rewrite I1.
    unfold due at 1. rewrite E, H1. cbn [skipn]. rewrite !data_of_cons. cbn [set_data cdat]. unfold due, received. rewrite H3, H4.
    unfold data_of at 2 3. cbn [map List.concat]. rewrite app_nil_r.
    set (A := zeros c ++ cdat r). set (X := data_of m). set (Y := cdat e ++ zeros c).
    rewrite due_step by auto. rewrite skipn_nwin by auto. rewrite <- conv_seq_app by auto.
    unfold offline, A, Y. rewrite data_of_app. unfold data_of at 2. cbn [map List.concat]. rewrite app_nil_r. fold X.
    now rewrite <- !app_assoc.
Qed.

Lemma running_ideal c l past : valid_cfg c -> strd c <= kspan c -> running l ->
  data_of (ideal c past l) = conv_seq c (zeros c ++ data_of l) /\
  forall o, pending c o l = Some (zeros c ++ data_of l).
Proof.
  intros Hv Hs Hr. destruct (running_shape l Hr) as (r & m & -> & H1 & H2 & Hm).
  assert (E : forall p, received c p r = zeros c ++ cdat r) by (intros; unfold received; rewrite H1, H2, app_nil_r; reflexivity).
  destruct (inner_ideal c Hv Hs m (zeros c ++ cdat r) Hm) as [I1 I2].
  cbn [ideal pending]. rewrite H2, !data_of_cons. cbn [set_data cdat]. unfold due. rewrite !E, H1. cbn [skipn].
  split.
  - rewrite I1. rewrite skipn_nwin by auto. rewrite <- conv_seq_app by auto. now rewrite <- app_assoc.
  - intros o. rewrite E, I2. now rewrite <- app_assoc.
Qed.

(** Segments of a stream. *)
Lemma segment_ideal c l1 l l2 : exists p, 
  ideal c [] (l1 ++ l ++ l2) = ideal c [] l1 ++ ideal c p l ++ ideal c (so_far (pending c (Some p) l)) l2.
Proof.
  exists (so_far (pending c None l1)). change (@nil V) with (so_far (@None (list V))).
  rewrite ideal_app. f_equal.
  change (so_far (pending c None l1)) with (so_far (Some (so_far (pending c None l1)))). now rewrite ideal_app.
Qed.

Lemma matches_none c : matches c no_buffers (fun _ => None).
Proof. intros i. now destruct (1 <? kspan c). Qed.

Lemma good_course c (sched : list (list (chunk V))) : good_schedule sched -> on_course c (fun _ => None) sched.
Proof. intros [Hg Hp]. apply protocol_course; auto. Qed.

Theorem run_spec c sched ys st' : valid_cfg c -> strd c <= kspan c ->
  good_schedule (map trows sched) -> Forall (fits c) sched ->
  conv_run c no_buffers (map (tensor_of (zin c)) sched) = Ok (ys, st') ->
  exists outs, ys = map (tensor_of (zout c)) outs /\ Forall2 relabelled sched outs /\
    Forall2 (Forall2 follows) (map trows sched) (map trows outs) /\
    (forall i, stream_of i (map trows outs) = ideal c [] (stream_of i (map trows sched))) /\
    (forall i, st' i = if 1 <? kspan c then option_map (leftover c) (pending c None (stream_of i (map trows sched))) else None).
Proof.
  intros Hv Hs Hg Hf Hrun. pose proof Hg as [Hg1 _].
  destruct (run_refines c Hv Hs sched _ _ ys st' Hg1 Hf (good_course c _ Hg) (matches_none c) Hrun) as (outs & -> & HR & Ho & Hm).
  exists outs. split; auto. split; auto. rewrite Ho. split; [apply spec_run_follows|]. split; auto.
  intros i. rewrite spec_run_stream by auto. reflexivity.
Qed.

Theorem stream_offline c sched ys st' : valid_cfg c -> strd c <= kspan c ->
  good_schedule (map trows sched) -> Forall (fits c) sched ->
  conv_run c no_buffers (map (tensor_of (zin c)) sched) = Ok (ys, st') ->
  exists outs, ys = map (tensor_of (zout c)) outs /\
    Forall2 (Forall2 follows) (map trows sched) (map trows outs) /\
    forall i l1 l l2, stream_of i (map trows sched) = l1 ++ l ++ l2 -> complete l ->
      exists o1 o o2, stream_of i (map trows outs) = o1 ++ o ++ o2 /\ length o1 = length l1 /\ length o = length l /\
        data_of o = offline c (data_of l).
Proof.
  intros Hv Hs Hg Hf Hrun. destruct (run_spec c sched ys st' Hv Hs Hg Hf Hrun) as (outs & -> & _ & HF & Ho & _).
  exists outs. split; auto. split; auto. intros i l1 l l2 E Hc. rewrite Ho, E.
  destruct (segment_ideal c l1 l l2) as (p & ->). do 3 eexists. split; [reflexivity|]. rewrite !ideal_length.
  repeat split; auto. now apply complete_ideal.
Qed.

Theorem stream_so_far c sched ys st' : valid_cfg c -> strd c <= kspan c ->
  good_schedule (map trows sched) -> Forall (fits c) sched ->
  conv_run c no_buffers (map (tensor_of (zin c)) sched) = Ok (ys, st') ->
  exists outs, ys = map (tensor_of (zout c)) outs /\
    Forall2 (Forall2 follows) (map trows sched) (map trows outs) /\
    forall i l1 l, stream_of i (map trows sched) = l1 ++ l -> running l ->
      exists o1 o, stream_of i (map trows outs) = o1 ++ o /\ length o1 = length l1 /\ length o = length l /\
        data_of o = conv_seq c (zeros c ++ data_of l).
Proof.
  intros Hv Hs Hg Hf Hrun. destruct (run_spec c sched ys st' Hv Hs Hg Hf Hrun) as (outs & -> & _ & HF & Ho & _).
  exists outs. split; auto. split; auto. intros i l1 l E Hc. rewrite Ho, E.
  change (@nil V) with (so_far (@None (list V))). rewrite ideal_app. do 2 eexists. split; [reflexivity|]. rewrite !ideal_length.
  repeat split; auto. now apply running_ideal.
Qed.

Lemma conv_prefix c (D F : list V) : valid_cfg c -> strd c <= kspan c ->
  exists rest, offline c (D ++ F) = conv_seq c (zeros c ++ D) ++ rest.
Proof.
  intros Hv Hs. unfold offline. eexists. rewrite <- app_assoc, app_assoc. now apply conv_seq_app.
Qed.

(* ---------- buffers ---------- *)

Lemma pending_running c : forall l o A, pending c o l = Some A -> l <> [] -> exists l0 r, l = l0 ++ [r] /\ ceos r = false.
Proof.
  intros l o A H Hne. destruct (@exists_last _ l Hne) as (l0 & r & ->). exists l0, r. split; auto.
  rewrite pending_app in H. simpl in H. destruct (ceos r); [discriminate|auto].
Qed.

Theorem buffers_spec c sched ys st' : valid_cfg c -> strd c <= kspan c ->
  good_schedule (map trows sched) -> Forall (fits c) sched ->
  conv_run c no_buffers (map (tensor_of (zin c)) sched) = Ok (ys, st') ->
  forall i b, st' i = Some b ->
    length b <= kspan c - 1 /\ exists l r, stream_of i (map trows sched) = l ++ [r] /\ ceos r = false.
Proof.
  intros Hv Hs Hg Hf Hrun i b Hb. destruct (run_spec c sched ys st' Hv Hs Hg Hf Hrun) as (outs & -> & _ & _ & _ & Hst).
  rewrite Hst in Hb. destruct (1 <? kspan c); [|discriminate].
  destruct (pending c None (stream_of i (map trows sched))) as [A|] eqn:E; [|discriminate]. simpl in Hb. inversion Hb; subst.
  split.
  - pose proof (leftover_length c A Hv Hs). lia.
  - eapply pending_running; eauto. intros En. rewrite En in E. discriminate.
Qed.

(* ---------- independence ---------- *)

Theorem independent c sched1 sched2 ys1 ys2 st1 st2 i : valid_cfg c -> strd c <= kspan c ->
  good_schedule (map trows sched1) -> good_schedule (map trows sched2) -> Forall (fits c) sched1 -> Forall (fits c) sched2 ->
  conv_run c no_buffers (map (tensor_of (zin c)) sched1) = Ok (ys1, st1) ->
  conv_run c no_buffers (map (tensor_of (zin c)) sched2) = Ok (ys2, st2) ->
  stream_of i (map trows sched1) = stream_of i (map trows sched2) ->
  exists outs1 outs2, ys1 = map (tensor_of (zout c)) outs1 /\ ys2 = map (tensor_of (zout c)) outs2 /\
    stream_of i (map trows outs1) = stream_of i (map trows outs2) /\ st1 i = st2 i.
Proof.
  intros Hv Hs G1 G2 F1 F2 R1 R2 E.
  destruct (run_spec c sched1 ys1 st1 Hv Hs G1 F1 R1) as (o1 & -> & _ & _ & A1 & B1).
  destruct (run_spec c sched2 ys2 st2 Hv Hs G2 F2 R2) as (o2 & -> & _ & _ & A2 & B2).
  exists o1, o2. repeat split; auto.
  - now rewrite A1, A2, E.
  - now rewrite B1, B2, E.
Qed.

(* ---------- success ---------- *)

Lemma due_nonempty c past (r : chunk V) : valid_cfg c -> (due c past r <> [] <-> spans c past r).
Proof.
  intros Hv. unfold due, spans. set (m := if csos r then 0 else nwin c (length past)).
  rewrite <- (nwin_lt c) by auto. rewrite <- conv_seq_length. split.
  - intros H. destruct (Nat.lt_ge_cases m (length (conv_seq c (received c past r)))); auto. rewrite skipn_all2 in H by lia. congruence.
  - intros H E. assert (G : length (skipn m (conv_seq c (received c past r))) = 0) by now rewrite E. rewrite skipn_length in G. lia.
Qed.

Lemma starved_spans c (past : pasts) (rs : list (chunk V)) : valid_cfg c ->
  (~ starved c past rs <-> exists r, In r rs /\ spans c (so_far (past (cid r))) r).
Proof.
  intros Hv. split.
  - intros H. destruct (existsb (fun r => negb (match due c (so_far (past (cid r))) r with [] => true | _ => false end)) rs) eqn:E.
    + apply existsb_exists in E as (r & Hr & E). exists r. split; auto. apply due_nonempty; auto.
      destruct (due c (so_far (past (cid r))) r); [discriminate|congruence].
    + exfalso. apply H. intros r Hr. destruct (due c (so_far (past (cid r))) r) eqn:Ed; auto.
      assert (existsb (fun r => negb (match due c (so_far (past (cid r))) r with [] => true | _ => false end)) rs = true)
        by (apply existsb_exists; exists r; rewrite Ed; auto). congruence.
  - intros (r & Hr & H) Hst. apply (due_nonempty c) in H; auto.
Qed.

Lemma pending_nonempty c : forall l o A, (forall B, o = Some B -> B <> []) -> protocol (is_some o) l ->
  Forall (fun r => csos r = true \/ ceos r = true -> cdat r <> []) l -> pending c o l = Some A -> A <> [].
Proof.
  induction l as [|r l IH]; intros o A Ho Hp Hf H; simpl in *; [auto|].
  inversion Hf as [|? ? Hf1 Hf2]; subst. destruct Hp as [Hp1 Hp2].
  eapply IH; [| |exact Hf2|exact H].
  - destruct (ceos r); [discriminate|]. intros B E. inversion E; subst. unfold received. intros En.
    apply app_eq_nil in En as [E1 E2]. apply app_eq_nil in E2 as [E2 _]. destruct (csos r) eqn:Es.
    + apply Hf1; auto.
    + destruct o as [P|]; simpl in *; [|discriminate]. now apply (Ho P).
  - now destruct (ceos r).
Qed.

Lemma protocol_prefix : forall l1 l2 o, protocol o (l1 ++ l2) -> protocol (V := V) o l1.
Proof. induction l1; intros; simpl in *; auto. destruct H as [H1 H2]. split; eauto. Qed.

Lemma stream_of_app i (s1 s2 : list (list (chunk V))) : stream_of i (s1 ++ s2) = stream_of i s1 ++ stream_of i s2.
Proof. unfold stream_of. now rewrite concat_app, filter_app. Qed.

Lemma Forall_stream i (P : chunk V -> Prop) (s : list (list (chunk V))) : Forall (Forall P) s -> Forall P (stream_of i s).
Proof.
  intros H. unfold stream_of. apply Forall_forall. intros r Hr. apply filter_In in Hr as [Hr _].
  apply in_concat in Hr as (rs & Hrs & Hr). rewrite !Forall_forall in H. specialize (H rs Hrs). rewrite Forall_forall in H. auto.
Qed.

Lemma good_flags (s : list (list (chunk V))) : Forall good_batch s ->
  Forall (Forall (fun r => csos r = true \/ ceos r = true -> cdat r <> [])) s.
Proof. intros H. eapply Forall_impl; [|exact H]. intros rs (_ & _ & G). exact G. Qed.

Lemma in_stream_of i rs (sched : list (list (chunk V))) (r : chunk V) k : nth_error sched k = Some rs -> In r rs -> cid r = i ->
  exists l2, stream_of i sched = stream_of i (firstn k sched) ++ l2 /\ In r l2.
Proof.
  intros Hk Hr Hi. exists (stream_of i (skipn k sched)). split.
  - rewrite <- stream_of_app. now rewrite firstn_skipn.
  - unfold stream_of. apply filter_In. split; [|subst; apply String.eqb_refl].
    apply in_concat. exists rs. split; auto. 
    assert (G : nth_error (skipn k sched) 0 = Some rs).
    { clear - Hk. revert sched Hk. induction k; intros [|x s] Hk; simpl in *; try discriminate; auto. }
    now apply nth_error_In in G.
Qed.

Lemma firstn_map' {A B} (f : A -> B) k : forall s : list A, firstn k (map f s) = map f (firstn k s).
Proof. induction k; intros [|a s]; simpl; auto. now rewrite IHk. Qed.

Lemma pending_on c r rest : csos r = false -> forall l o, protocol (is_some o) (l ++ r :: rest) -> pending c o l <> None.
Proof.
  intros Hns. induction l as [|q l IH]; intros o Hp; simpl in *.
  - destruct Hp as [E _]. rewrite Hns in E. destruct o; simpl in *; congruence.
  - destruct Hp as [_ Hp]. apply IH. now destruct (ceos q).
Qed.

(** With stride < kernel width nothing jams. *)
Lemma no_jam c sched k t : valid_cfg c -> strd c < kspan c -> good_schedule (map trows sched) -> nth_error sched k = Some t ->
  ~ jam c (fun i => pending c None (stream_of i (map trows (firstn k sched)))) (trows t).
Proof.
  intros Hv Hs [Hg Hp] Hk (_ & _ & (r & Hr & Hns) & Hall). specialize (Hall r Hr Hns).
  assert (Hk' : nth_error (map trows sched) k = Some (trows t)) by (rewrite nth_error_map, Hk; reflexivity).
  assert (Hpre : on_protocol (fun _ => None) (firstn k (map trows sched))).
  { intros i. specialize (Hp i). rewrite <- (firstn_skipn k (map trows sched)), stream_of_app in Hp. now apply protocol_prefix in Hp. }
  assert (Hrun : pending c None (stream_of (cid r) (map trows (firstn k sched))) <> None).
  { specialize (Hp (cid r)).
    assert (Hgt : good_batch (trows t)).
    { rewrite Forall_forall in Hg. apply Hg. eapply nth_error_In; eauto. }
    destruct Hgt as (_ & Hnd & _).
    assert (Esplit : map trows sched = firstn k (map trows sched) ++ trows t :: skipn (S k) (map trows sched)).
    { clear - Hk'. revert k Hk'. induction (map trows sched) as [|x s IH]; intros [|k] H; simpl in *; try discriminate.
      - now inversion H.
      - now rewrite <- IH. }
    rewrite Esplit, stream_of_app, stream_of_cons, filter_cid, find_cid in Hp by auto.
    rewrite firstn_map' in Hp. eapply (pending_on c r); eauto. }
  destruct (pending c None (stream_of (cid r) (map trows (firstn k sched)))) as [A|] eqn:E; [|congruence].
  cbn [so_far] in Hall. revert Hall. apply leftover_nonempty; auto.
  eapply pending_nonempty; [| | |exact E].
  - discriminate.
  - rewrite <- firstn_map'. apply Hpre.
  - rewrite <- firstn_map'. apply Forall_stream, good_flags. clear - Hg. revert k. induction Hg; intros [|k]; simpl; constructor; auto.
Qed.

Theorem run_succeeds c sched : valid_cfg c -> strd c < kspan c ->
  good_schedule (map trows sched) -> Forall (fits c) sched ->
  (forall k t, nth_error sched k = Some t -> exists r, In r (trows t) /\
     spans c (so_far (pending c None (stream_of (cid r) (map trows (firstn k sched))))) r) ->
  exists ys st', conv_run c no_buffers (map (tensor_of (zin c)) sched) = Ok (ys, st').
Proof.
  intros Hv Hs Hg Hf H. pose proof Hg as [Hg1 _].
  apply (run_total c Hv ltac:(lia) sched no_buffers (fun _ => None)); auto.
  - now apply good_course.
  - apply matches_none.
  - intros k t Hk. cbv zeta. split; [now apply no_jam|]. apply starved_spans; auto.
Qed.

Theorem run_succeeds_only c sched ys st' : valid_cfg c -> strd c <= kspan c ->
  good_schedule (map trows sched) -> Forall tight sched ->
  conv_run c no_buffers (map (tensor_of (zin c)) sched) = Ok (ys, st') ->
  forall k t, nth_error sched k = Some t -> exists r, In r (trows t) /\
     spans c (so_far (pending c None (stream_of (cid r) (map trows (firstn k sched))))) r.
Proof.
  intros Hv Hs Hg Hf Hrun k t Hk. pose proof Hg as [Hg1 _].
  destruct (run_only c Hv Hs sched no_buffers (fun _ => None) ys st' Hg1 Hf (good_course c _ Hg) (matches_none c) Hrun k t Hk) as [_ H].
  apply (starved_spans c _ (trows t)) in H; auto.
Qed.

End ConvStreamProofs.

(** Proofs: batches whose rows start together keep their chunk indices. *)

From Coq Require Import String List ZArith Bool Lia.
From Coq Require Import ZifyBool.
From Verif Require Import Py Meta MetaSpec Pad Conv ConvSpec ConvProofs ConvRunProofs ConvStreamProofs ConvMoreProofs
  Stack StackSpec StackProofs StackLiveProofs PipelineSpec PipelineProofs KeepSpec KeepProofs.
Import ListNotations.
Open Scope nat_scope.

Section KeepGroup.
Context {V : Type}.
Implicit Types (L : layer V) (Ls : list (layer V)) (l : list (chunk V)) (sched : list (list (chunk V))).

Lemma keeps_all_start (c : conv_cfg V) sched rs : (forall r, In r rs -> csos r = true) -> keeps c sched rs = true.
Proof.
  intros H. unfold keeps. apply orb_true_iff. right. apply forallb_forall. intros r Hr. apply forallb_forall. intros q Hq.
  unfold waiting. rewrite (H r Hr), (H q Hq). reflexivity.
Qed.

(** A stream that goes on has all but one column of the kernel. *)
Lemma pending_filled (c : conv_cfg V) : forall l o,
  Forall (fun r => csos r = true -> ceos r = false -> kspan c <= padn c + length (cdat r) + 1) l ->
  protocol (is_some o) l -> (forall A, o = Some A -> kspan c <= length A + 1) ->
  forall A, pending c o l = Some A -> kspan c <= length A + 1.
Proof.
  induction l as [|r l IH]; intros o HF Hp Ho A HA; cbn [pending] in HA; [auto|]. inversion HF as [|? ? H1 H2]; subst. destruct Hp as [Hs Hp].
  eapply IH; [exact H2| |  |exact HA].
  - destruct (ceos r); exact Hp.
  - intros B HB. destruct (ceos r) eqn:Ee; [discriminate|]. inversion HB; subst. unfold received. rewrite Ee, app_nil_r, app_length.
    destruct (csos r) eqn:Es.
    + unfold zeros. rewrite repeat_length. specialize (H1 eq_refl eq_refl). lia.
    + destruct o as [A0|]; [|discriminate]. cbn [so_far]. specialize (Ho A0 eq_refl). lia.
Qed.

Lemma waiting_filled (c : conv_cfg V) n : valid_cfg c -> strd c = 1 -> kspan c <= n + 1 -> n - nwin c n * strd c = kspan c - 1.
Proof.
  intros Hv Hs Hn. unfold nwin. rewrite Hs. destruct (n <? kspan c) eqn:E; [lia|]. rewrite Nat.div_1_r. lia.
Qed.

Lemma keeps_filled (c : conv_cfg V) sched k rs : valid_cfg c -> strd c = 1 -> good_schedule sched -> 
  (forall i, Forall (fun r => csos r = true -> ceos r = false -> kspan c <= padn c + length (cdat r) + 1) (stream_of i sched)) ->
  nth_error sched k = Some rs -> (forall r, In r rs -> csos r = false) -> keeps c (firstn k sched) rs = true.
Proof.
  intros Hv Hs [Hg Hp] Hf Hk Hr. unfold keeps. apply orb_true_iff. right.
  assert (G : forall r, In r rs -> waiting c (firstn k sched) r = kspan c - 1).
  { intros r Hin. unfold waiting. rewrite (Hr r Hin). cbv zeta. apply waiting_filled; auto.
    apply nth_error_split in Hk as (l1 & l2 & -> & <-).
    rewrite firstn_app, firstn_all, Nat.sub_diag. cbn [firstn]. rewrite app_nil_r.
    specialize (Hp (cid r)). specialize (Hf (cid r)). rewrite stream_of_app in Hp, Hf. apply Forall_app in Hf as [Hf _].
    assert (Hx : exists a b, stream_of (cid r) (rs :: l2) = a ++ r :: b /\ a = []).
    { unfold stream_of. cbn [List.concat]. rewrite filter_app. apply in_split in Hin as (u & v & ->). rewrite filter_app. cbn [filter].
      rewrite String.eqb_refl. apply Forall_app in Hg as [_ Hg]. inversion Hg as [|? ? (_ & Hnd & _) _]; subst.
      rewrite map_app in Hnd. cbn [map] in Hnd. apply NoDup_remove_2 in Hnd.
      exists [], (filter (fun q => String.eqb (cid q) (cid r)) v ++ filter (fun q => String.eqb (cid q) (cid r)) (List.concat l2)). split; auto.
      replace (filter (fun q => String.eqb (cid q) (cid r)) u) with (@nil (chunk V)); [reflexivity|].
      symmetry. clear - Hnd. induction u as [|q u IH]; auto. cbn [filter]. destruct (String.eqb_spec (cid q) (cid r)).
      - exfalso. apply Hnd. cbn [map app]. left. auto.
      - apply IH. intros H. apply Hnd. cbn [map app]. now right. }
    destruct Hx as (a & b & E & ->). rewrite E in Hp. cbn [app] in Hp.
    pose proof (pending_on c r b (Hr r Hin) (stream_of (cid r) l1) None Hp) as Hne.
    destruct (pending c None (stream_of (cid r) l1)) as [A|] eqn:EA; [|congruence]. cbn [so_far].
    apply (pending_filled c (stream_of (cid r) l1) None); auto; [|discriminate].
    clear - Hp. revert Hp. cbn [is_some]. generalize false. induction (stream_of (cid r) l1) as [|q t IH]; intros o Hp; cbn [protocol app] in *; auto.
    destruct Hp. split; auto. }
  apply forallb_forall. intros r Hin. apply forallb_forall. intros q Hq. rewrite (G r Hin), (G q Hq). apply Nat.eqb_refl.
Qed.

Lemma nth_seq_id {A} (d : A) : forall l : list A, map (fun k => nth k l d) (seq 0 (length l)) = l.
Proof. induction l as [|a l IH]; [reflexivity|]. cbn [length seq map nth]. f_equal. rewrite <- seq_shift, map_map. exact IH. Qed.

Lemma layer_phase L sched : Forall good_batch sched -> in_phase sched -> in_phase (layer_schedule L sched).
Proof.
  intros Hg H. pose proof (layer_schedule_follows L sched Hg) as HF. clear Hg. unfold in_phase in *. induction HF as [|a b s t Hab HF IH]; constructor.
  - inversion H as [|? ? H1 _]; subst. assert (G : forall q, In q b -> exists r, In r a /\ csos q = csos r).
    { clear - Hab. induction Hab as [|x y a b (_ & E & _) Hab IH]; intros q []; [subst; exists x; split; [now left|auto]|].
      destruct (IH q H) as (r & Hr & Er). exists r. split; [now right|auto]. }
    destruct H1 as [H1|H1]; [left|right]; intros q Hq; destruct (G q Hq) as (r & Hr & ->); auto.
  - inversion H; subst; auto.
Qed.

Lemma keep_step (c : conv_cfg V) sched hs : length hs = length sched ->
  (forall k rs, nth_error sched k = Some rs -> keeps c (firstn k sched) rs = true) ->
  map (fun k => nth k hs false && keeps c (firstn k sched) (nth k sched [])) (seq 0 (length sched)) = hs.
Proof.
  intros Hl H. transitivity (map (fun k => nth k hs false) (seq 0 (length hs))); [|apply nth_seq_id]. rewrite Hl. apply map_ext_in. intros k Hk. apply in_seq in Hk.
  rewrite (H k (nth k sched [])); [apply andb_true_r|]. apply nth_error_nth'. lia.
Qed.

Lemma layer_schedule_length L sched : length (layer_schedule L sched) = length sched.
Proof. unfold layer_schedule. now rewrite map_length, seq_length. Qed.

Theorem carried_phase : forall Ls sched hs, length hs = length sched -> Forall good_layer Ls -> Forall unit_stride Ls -> good_schedule sched ->
  in_phase sched -> (forall i, survives Ls (stream_of i sched)) -> (forall i, filled Ls (stream_of i sched)) -> carried Ls sched hs = hs.
Proof.
  induction Ls as [|L Ls IH]; intros sched hs Hl HL Hu Hg Hph Hsv Hf; [reflexivity|]. inversion HL as [|? ? HL1 HL2]; subst. inversion Hu as [|? ? Hu1 Hu2]; subst.
  pose proof Hg as [Hg1 _].
  assert (Hnext : carried Ls (layer_schedule L sched) hs = hs).
  { destruct Ls as [|L2 Ls]; [reflexivity|]. apply IH; auto.
    - now rewrite layer_schedule_length.
    - eapply good_layer_schedule; eauto. discriminate.
    - now apply layer_phase.
    - intros i. rewrite layer_schedule_stream by auto. specialize (Hsv i). cbn [survives] in *. tauto.
    - intros i. rewrite layer_schedule_stream by auto. specialize (Hf i). cbn [filled] in *. tauto. }
  destruct L as [c|g]; cbn [carried]; [|exact Hnext]. rewrite keep_step; auto. intros k rs Hk.
  pose proof Hph as Hph'. unfold in_phase in Hph'. rewrite Forall_forall in Hph'. destruct (Hph' rs (nth_error_In _ _ Hk)) as [H|H].
  - now apply keeps_all_start.
  - destruct HL1. eapply keeps_filled; eauto. intros i. specialize (Hf i). cbn [filled] in Hf. tauto.
Qed.

Theorem carried_whole : forall Ls sched hs, length hs = length sched -> Forall (Forall (fun r => csos r = true)) sched -> carried Ls sched hs = hs.
Proof.
  induction Ls as [|L Ls IH]; intros sched hs Hl Hs; [reflexivity|].
  assert (Hs' : Forall (Forall (fun r => csos r = true)) (layer_schedule L sched)).
  { unfold layer_schedule. apply Forall_forall. intros rs Hrs. apply in_map_iff in Hrs as (n & <- & Hn). apply in_seq in Hn as [_ Hn]. cbn [Nat.add] in Hn. apply Forall_forall. intros q Hq.
    apply in_map_iff in Hq as (r & <- & Hr). rewrite Forall_forall in Hs. specialize (Hs (nth n sched []) (nth_In sched [] Hn)). rewrite Forall_forall in Hs.
    specialize (Hs r Hr). destruct L; exact Hs. }
  destruct L as [c|g]; cbn [carried].
  - rewrite keep_step; auto; [apply IH; auto; now rewrite layer_schedule_length|]. intros k rs Hk. apply keeps_all_start.
    rewrite Forall_forall in Hs. specialize (Hs rs (nth_error_In _ _ Hk)). now rewrite Forall_forall in Hs.
  - apply IH; auto. now rewrite layer_schedule_length.
Qed.

End KeepGroup.

(** Proofs about when networks on tensors succeed. *)

From Coq Require Import String List ZArith Bool Lia.
From Coq Require Import ZifyBool.
From Verif Require Import Py Meta MetaSpec Named NamedSpec Pad Conv ConvSpec Stack StackSpec StackProofs StackLiveProofs
  ConvTensor ConvTensorSpec ConvTensorProofs ConvTensorHookProofs ConvTensorRunProofs ConvNet ConvNetSpec ConvNetProofs.
Import ListNotations.
Open Scope nat_scope.

Section ConvNetLive.
Context {V : Type}.
Context (A : arith V).

Lemma net_overlapping_layers c z Ls qs c' z' : network A c z Ls qs c' z' -> net_overlapping Ls qs -> Forall overlapping (column_layers A c Ls qs).
Proof.
  intros HN. induction HN as [c z|c n c' z' k q Ls qs HM Hs HN IH|c z n g c' z' q Ls qs Hg HN IH]; cbn [column_layers net_overlapping]; auto.
  - intros [H1 H2]. rewrite (network_out _ _ _ _ _ _ _ _ HM). constructor; [|auto]. cbn [overlapping].
    split; [apply (cfg_valid A k c n _ _ _ _ _ HM)|exact H1].
  - intros [_ H]. constructor; [exact I|auto].
Qed.

Lemma net_unpadded c z Ls qs c' z' : network A c z Ls qs c' z' -> forall n,
  unpadded_width (column_layers A c Ls qs) n = net_width Ls (map unpadded qs) n.
Proof.
  intros HN. induction HN as [c z|c m c' z' k q Ls qs HM Hs HN IH|c z m g c' z' q Ls qs Hg HN IH]; intros n; cbn [column_layers unpadded_width net_width map]; auto.
  rewrite (network_out _ _ _ _ _ _ _ _ HM). cbn [unpadded z_p z_d z_ks z_s]. rewrite Nat.mul_0_r, Nat.add_0_r.
  change (kspan (columns_cfg A k c m (z_cg q) (z_ks q) (z_s q) (z_d q) (z_p q))) with (z_d q * (z_ks q - 1) + 1).
  change (strd (columns_cfg A k c m (z_cg q) (z_ks q) (z_s q) (z_d q) (z_p q))) with (z_s q).
  now rewrite IH.
Qed.

Lemma net_run_iff f c z Ls qs c' z' sched xs : mask_clears A -> channel_name f -> network A c z Ls qs c' z' -> Forall tight sched ->
  Forall2 (holds c f) xs (map (tensor_of z) sched) ->
  ((exists ys sts', net_run A Ls (net_fresh Ls) xs = Ok (ys, sts')) <->
   (exists bs sts', stack_run (column_layers A c Ls qs) (fresh (column_layers A c Ls qs)) (map (tensor_of z) sched) = Ok (bs, sts'))).
Proof.
  intros HA Hf HN HT HX.
  assert (HD : Forall described (map (tensor_of z) sched)).
  { rewrite Forall_map. eapply Forall_impl; [|exact HT]. intros t Ht. apply tensor_described. unfold tight in Ht. lia. }
  pose proof (net_run_ok A f c z Ls qs c' z' HA Hf HN xs _ _ _ (net_fresh_ok A _ _ _ _ _ _ HN) HX HD) as HAg.
  destruct (net_run A Ls (net_fresh Ls) xs) as [(ys, s)|e], (stack_run _ _ _) as [(bs, s')|e']; cbn [agree] in HAg; try contradiction;
    split; intros (a & b & E); try discriminate; eauto.
Qed.

Theorem net_succeeds f c z Ls qs c' z' sched xs : mask_clears A -> channel_name f -> network A c z Ls qs c' z' -> net_overlapping Ls qs ->
  good_schedule (map trows sched) -> Forall tight sched ->
  (forall i, survives (column_layers A c Ls qs) (stream_of i (map trows sched))) ->
  Forall2 (holds c f) xs (map (tensor_of z) sched) ->
  ((exists ys sts', net_run A Ls (net_fresh Ls) xs = Ok (ys, sts')) <-> alive (column_layers A c Ls qs) (map trows sched)).
Proof.
  intros HA Hf HN HO HG HT HS HX. rewrite (net_run_iff f c z Ls qs c' z' sched xs) by eauto.
  destruct (network_zero A _ _ _ _ _ _ HN) as (N1 & _). apply (stack_succeeds z'); auto. eapply net_overlapping_layers; eauto.
Qed.

Theorem net_long f c z Ls qs c' z' sched xs n w : mask_clears A -> channel_name f -> network A c z Ls qs c' z' -> net_overlapping Ls qs ->
  good_schedule (map trows sched) -> Forall tight sched ->
  1 <= n -> Forall (fun t => Forall (fun r => n <= length (cdat r)) (trows t)) sched -> net_width Ls (map unpadded qs) n = Some w ->
  Forall2 (holds c f) xs (map (tensor_of z) sched) ->
  exists ys sts' outs, net_run A Ls (net_fresh Ls) xs = Ok (ys, sts') /\ Forall2 (holds c' f) ys (map (tensor_of z') outs) /\
    Forall2 (Forall2 follows) (map trows sched) (map trows outs) /\
    forall i l1 l l2, stream_of i (map trows sched) = l1 ++ l ++ l2 -> complete l ->
      exists o1 o o2, stream_of i (map trows outs) = o1 ++ o ++ o2 /\ length o1 = length l1 /\ length o = length l /\
        network_value A Ls qs (data_of l) (data_of o).
Proof.
  intros HA Hf HN HO HG HT Hn HL HW HX. destruct (network_zero A _ _ _ _ _ _ HN) as (N1 & _).
  rewrite <- (net_unpadded c z Ls qs c' z' HN) in HW.
  destruct (stack_long (column_layers A c Ls qs) z z' sched n w (net_overlapping_layers _ _ _ _ _ _ HN HO) N1 HG HT Hn HL HW) as (HS & HR).
  destruct (proj2 (net_run_iff f c z Ls qs c' z' sched xs HA Hf HN HT HX) HR) as (ys & sts' & E).
  destruct (net_stream A f c z Ls qs c' z' sched xs ys sts' HA Hf HN HG HT HS HX E) as (outs & K). exists ys, sts', outs. split; [exact E|exact K].
Qed.

End ConvNetLive.

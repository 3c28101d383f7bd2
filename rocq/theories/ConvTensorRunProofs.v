(** Proofs: streaming a convolution on tensors gives the convolution of the whole sequence. *)

From Coq Require Import String List ZArith Bool Lia.
From Coq Require Import ZifyBool.
From Verif Require Import Py Meta MetaSpec Named NamedSpec Pad Conv ConvSpec ConvProofs ConvRunProofs ConvStreamProofs ConvMoreProofs ConvTensor ConvTensorSpec ConvTensorProofs ConvTensorHookProofs.
Import ListNotations.
Open Scope Z_scope.

Section ConvTensorRunProofs.
Context {V : Type} (A : arith V).
Context (k : conv_args V) (cin cout cg ks s d p : nat) (HM : module_ok k cin cout cg ks s d p).
Notation C := (columns_cfg A k cin cout cg ks s d p).

Lemma cfg_valid : valid_cfg C.
Proof. pose proof (mk_sizes _ _ _ _ _ _ _ _ HM). unfold valid_cfg. cbn. lia. Qed.

Lemma offline_convolution cols : Forall (fun col => length col = cin) cols -> convolution_of A k cout cg ks s d p cols (offline C cols).
Proof.
  intros HC. unfold convolution_of, offline, conv_seq, nwin. cbv zeta. change (kspan C) with (d * (ks - 1) + 1)%nat. cbn [strd columns_cfg].
  assert (EL : length (zeros C ++ cols ++ zeros C) = (length cols + 2 * p)%nat).
  { rewrite !app_length. unfold zeros. rewrite !repeat_length. cbn [padn columns_cfg]. lia. }
  rewrite EL. split; [now rewrite map_length, seq_length|].
  intros i col Hi. assert (Hlt := proj1 (nth_error_Some _ i) ltac:(rewrite Hi; discriminate)). rewrite map_length, seq_length in Hlt.
  set (n := (if (_ <? _)%nat then _ else _)) in *.
  rewrite nth_error_map in Hi. destruct (nth_error (seq 0 n) i) as [i'|] eqn:Ei; [|discriminate].
  assert (i' = i). { rewrite nth_error_nth' with (d := 0%nat) in Ei by (now rewrite seq_length). injection Ei as <-. now rewrite seq_nth. } subst i'.
  cbn [option_map] in Hi. injection Hi as <-. cbn [kfun columns_cfg].
  split; [now rewrite map_length, seq_length|]. intros o v Ho.
  assert (Hol := proj1 (nth_error_Some _ o) ltac:(rewrite Ho; discriminate)). rewrite map_length, seq_length in Hol.
  rewrite nth_error_map in Ho. rewrite nth_error_nth' with (d := 0%nat) in Ho by (now rewrite seq_length). cbn [option_map] in Ho.
  rewrite seq_nth in Ho by exact Hol. cbn [Nat.add] in Ho. injection Ho as <-.
  unfold out_channel, conv_value. f_equal. apply flat_map_ext_in. intros c Hc. apply map_ext_in. intros j Hj. apply in_seq in Hj. f_equal.
  unfold window. cbn [strd dilat ksize columns_cfg]. rewrite nth_map_lt with (d' := 0%nat) by (rewrite seq_length; lia). rewrite seq_nth by lia. cbn [Nat.add].
  change (zin C) with (repeat (zero A) cin). rewrite nth_default.
  change (zeros C ++ cols ++ zeros C) with (padcols A cin p p cols). rewrite getc_padcols. unfold padded_value, getc.
  destruct (Nat.ltb_spec (i * s + j * d) p) as [Hp|Hp].
  - replace (p <=? i * s + j * d)%nat with false by lia. reflexivity.
  - replace (p <=? i * s + j * d)%nat with true by lia. cbn [andb]. destruct (Nat.ltb_spec (i * s + j * d) (p + length cols)) as [Hq|Hq]; [reflexivity|].
    rewrite (nth_overflow cols) by lia. now rewrite nth_nothing.
Qed.

(** The plain module on whole sequences. *)
Theorem plain_module w t rows : holds_data cin w t rows ->
  if (w + 2 * p <? d * (ks - 1) + 1)%nat then torch_conv1d_t A t k (Z.of_nat p) = Err RuntimeError
  else exists t' outs, torch_conv1d_t A t k (Z.of_nat p) = Ok t' /\ holds_data cout ((w + 2 * p - (d * (ks - 1) + 1)) / s + 1) t' outs /\
         Forall2 (convolution_of A k cout cg ks s d p) rows outs.
Proof.
  intros HD. pose proof (torch_conv_ok A k cin cout cg ks s d p HM w t rows p HD) as HT.
  assert (HW : Forall (fun r => length r = w) rows).
  { destruct HD as (_ & ZX & _). unfold sized in ZX. eapply Forall_impl; [|exact ZX]. cbn. tauto. }
  pose proof (torch_offline C w rows cfg_valid HW) as HO. change (padn C) with p in HO. rewrite HO in HT.
  change (kspan C) with (d * (ks - 1) + 1)%nat in HT.
  unfold nwin in HT. change (kspan C) with (d * (ks - 1) + 1)%nat in HT. change (strd C) with s in HT.
  destruct (w + 2 * p <? d * (ks - 1) + 1)%nat eqn:E.
  - destruct (torch_conv1d_t A t k (Z.of_nat p)); cbn in HT; [contradiction|congruence].
  - destruct (torch_conv1d_t A t k (Z.of_nat p)) as [t'|]; cbn in HT; [|contradiction]. destruct HT as (H1 & _).
    exists t', (map (offline C) rows). split; [reflexivity|]. split; [exact H1|].
    destruct HD as (_ & ZX & _). unfold sized in ZX. clear -ZX HM. induction ZX as [|r rows [_ Hr] ZX IH]; cbn; constructor; auto.
    now apply offline_convolution.
Qed.

Lemma longest_ge (rs : list (chunk (list V))) r : In r rs -> (length (cdat r) <= longest rs)%nat.
Proof. unfold longest. induction rs as [|a rs IH]; cbn; intros []; [subst; lia|]. specialize (IH H). lia. Qed.

Lemma tensor_described z t : (longest (trows t) <= tw t)%nat -> described (V := V) (tensor_of z t).
Proof.
  intros H. unfold described, tensor_of, batch_with. cbn [bm bd bw]. eexists. eexists. split; [reflexivity|]. split; [now rewrite !map_length|].
  rewrite Forall_map, Forall_forall. intros r Hr. cbn [rlen]. pose proof (longest_ge _ _ Hr). lia.
Qed.

Lemma sched_columns f xs z sched : Forall2 (holds cin f) xs (map (tensor_of z) sched) ->
  forall i r, In r (stream_of i (map trows sched)) -> Forall (fun col => length col = cin) (cdat (V := list V) r).
Proof.
  intros HF i r Hr. unfold stream_of in Hr. apply filter_In in Hr as (Hr & _). apply in_concat in Hr as (rs & Hrs & Hr).
  apply in_map_iff in Hrs as (t & <- & Ht).
  assert (exists x, holds cin f x (tensor_of z t)) as (x & [(_ & ZX & _) _ _]).
  { assert (Hin : In (tensor_of z t) (map (tensor_of z) sched)) by now apply in_map.
    clear -HF Hin. induction HF as [|x b xs bs H HF IH]; [destruct Hin|]. destruct Hin as [<-|Hin]; eauto. }
  unfold sized, tensor_of, batch_with in ZX. cbn [bd] in ZX. rewrite Forall_map, Forall_forall in ZX. destruct (ZX r Hr) as (_ & H).
  apply Forall_app in H. apply H.
Qed.

Lemma run_agrees f sched xs : mask_clears A -> channel_name f -> Forall (fits C) sched ->
  Forall2 (holds cin f) xs (map (tensor_of (repeat (zero A) cin)) sched) ->
  agree (fun q q' => Forall2 (holds cout f) (fst q) (fst q') /\ same_buffers cin (snd q) (snd q'))
    (conv_run_t A k (fun _ => None) xs) (conv_run C no_buffers (map (tensor_of (zin C)) sched)).
Proof.
  intros HA Hf HF HX. apply (run_ok A k cin cout cg ks s d p HM f); auto.
  - intros i. exact I.
  - rewrite Forall_map. eapply Forall_impl; [|exact HF]. intros t (Ht & _). now apply tensor_described.
Qed.

Theorem stream_tensor f sched xs ys st' : mask_clears A -> channel_name f -> (s <= d * (ks - 1) + 1)%nat ->
  good_schedule (map trows sched) -> Forall (fits C) sched ->
  Forall2 (holds cin f) xs (map (tensor_of (repeat (zero A) cin)) sched) ->
  conv_run_t A k (fun _ => None) xs = Ok (ys, st') ->
  exists outs, Forall2 (holds cout f) ys (map (tensor_of (repeat (zero A) cout)) outs) /\
    Forall2 (Forall2 follows) (map trows sched) (map trows outs) /\
    forall i l1 l l2, stream_of i (map trows sched) = l1 ++ l ++ l2 -> complete l ->
      exists o1 o o2, stream_of i (map trows outs) = o1 ++ o ++ o2 /\ length o1 = length l1 /\ length o = length l /\
        convolution_of A k cout cg ks s d p (data_of l) (data_of o).
Proof.
  intros HA Hf Hs HG HF HX HR. pose proof (run_agrees f sched xs HA Hf HF HX) as HAg. rewrite HR in HAg.
  destruct (conv_run C no_buffers (map (tensor_of (zin C)) sched)) as [(bs, st2)|e] eqn:ER; cbn in HAg; [|contradiction].
  destruct HAg as (H1 & _).
  destruct (stream_offline C sched bs st2 cfg_valid Hs HG HF ER) as (outs & -> & H2 & H3).
  exists outs. split; [exact H1|]. split; [exact H2|]. intros i l1 l l2 Hi Hl.
  destruct (H3 i l1 l l2 Hi Hl) as (o1 & o & o2 & E1 & E2 & E3 & E4). exists o1, o, o2. split; [exact E1|]. split; [exact E2|]. split; [exact E3|].
  rewrite E4. apply offline_convolution. unfold data_of. apply Forall_forall. intros col Hc. apply in_concat in Hc as (cols & Hcols & Hc).
  apply in_map_iff in Hcols as (r & <- & Hr).
  pose proof (sched_columns f xs _ sched HX i r) as H. rewrite Forall_forall in H. apply H; auto. rewrite Hi. apply in_or_app. right. apply in_or_app. now left.
Qed.

Theorem never_fails f sched xs : mask_clears A -> channel_name f -> (s < d * (ks - 1) + 1)%nat ->
  good_schedule (map trows sched) -> Forall (fits C) sched ->
  (forall n t, nth_error sched n = Some t -> exists r, In r (trows t) /\
     spans C (so_far (pending C None (stream_of (cid r) (map trows (firstn n sched))))) r) ->
  Forall2 (holds cin f) xs (map (tensor_of (repeat (zero A) cin)) sched) ->
  exists ys st', conv_run_t A k (fun _ => None) xs = Ok (ys, st').
Proof.
  intros HA Hf Hs HG HF HSp HX. pose proof (run_agrees f sched xs HA Hf HF HX) as HAg.
  destruct (run_succeeds C sched cfg_valid Hs HG HF HSp) as (outs & st' & E). rewrite E in HAg.
  destruct (conv_run_t A k (fun _ => None) xs) as [(ys, st2)|e]; cbn in HAg; [eauto|contradiction].
Qed.

End ConvTensorRunProofs.

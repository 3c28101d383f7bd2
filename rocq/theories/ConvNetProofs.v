(** Proofs for networks on tensors (C84). *)

From Coq Require Import String List ZArith Bool Lia.
From Coq Require Import ZifyBool.
From Verif Require Import Py Meta MetaSpec Named NamedSpec Pad Conv ConvSpec ConvProofs Stack StackSpec StackProofs ConvTensor ConvTensorSpec ConvTensorProofs ConvTensorHookProofs ConvTensorRunProofs ConvNet ConvNetSpec.
Import ListNotations.
Open Scope Z_scope.

Section Described.
Context {V : Type}.

Lemma zmax_bound l : forall mx x, zmax l = Ok mx -> In x l -> (x <= mx)%Z.
Proof.
  destruct l as [|a l]; intros mx x E H; [discriminate|]. cbn in E. injection E as <-. cbn in H.
  revert a x H. induction l as [|b l IH]; intros a x H; cbn [fold_left In] in *; [lia|].
  destruct H as [->|[->|H]].
  - specialize (IH (Z.max x b) _ (or_introl eq_refl)). lia.
  - specialize (IH (Z.max a x) _ (or_introl eq_refl)). lia.
  - apply IH. auto.
Qed.

Lemma add_bounds w n fl : forall l, length fl = length l -> Forall (fun z => 0 <= z <= w) l -> 0 <= n ->
  Forall (fun z => 0 <= z) (add_where fl n l) /\ length (add_where fl n l) = length l.
Proof.
  unfold add_where. induction fl as [|b fl IH]; intros [|z l] HL HF Hn; try discriminate; [cbn; auto|].
  inversion HF; subst. destruct (IH l ltac:(now inversion HL) H2 Hn) as (I1 & I2). cbn [zip map length fst snd]. split; [|now f_equal].
  constructor; [destruct b; lia|exact I1].
Qed.

Lemma pad_lens_bounds (b : batch (list V)) h rs p : length rs = length (bd b) -> Forall (fun r => 0 <= rlen r <= Z.of_nat (bw b)) rs -> 0 <= p ->
  let l := pad_lens p (of_rows h rs) in
  length l = length rs /\ Forall (fun z => 0 <= z) l /\
  (all_starting_and_ending (of_rows h rs) = true -> Forall (fun z => z <= Z.of_nat (bw b) + 2 * p) l).
Proof.
  intros HL HF Hp. cbv zeta. unfold pad_lens. destruct (all_starting_and_ending (of_rows h rs)) eqn:E.
  - cbn [lens of_rows]. rewrite !map_length. split; [reflexivity|]. rewrite !Forall_map. split; [|intros _]; eapply Forall_impl; [|exact HF| |exact HF]; cbv beta; intros; lia.
  - assert (HF' : Forall (fun z => 0 <= z <= Z.of_nat (bw b)) (lens (of_rows h rs))) by (cbn [lens of_rows]; now rewrite Forall_map).
    destruct (any_starting_or_ending (of_rows h rs)).
    + destruct (add_bounds (Z.of_nat (bw b)) p (sos (of_rows h rs)) (lens (of_rows h rs))) as (B1 & B2); [cbn; now rewrite !map_length|exact HF'|lia|].
      set (l1 := add_where (sos (of_rows h rs)) p (lens (of_rows h rs))) in *.
      assert (L1 : length l1 = length rs) by (rewrite B2; cbn; apply map_length).
      assert (B3 : Forall (fun z => 0 <= z <= fold_right Z.max 0 l1) l1).
      { clear -B1. induction B1; constructor; cbn [fold_right]; [lia|]. eapply Forall_impl; [|exact IHB1]. cbv beta. intros; lia. }
      destruct (add_bounds _ p (eos (of_rows h rs)) l1 ltac:(cbn [eos of_rows]; rewrite map_length; symmetry; exact L1) B3 ltac:(lia)) as (C1 & C2).
      split; [congruence|]. split; [exact C1|discriminate].
    + split; [cbn; apply map_length|]. split; [|discriminate]. eapply Forall_impl; [|exact HF']. cbv beta. intros; lia.
Qed.

Lemma apply_padding_shape (c : conv_cfg (list V)) m w rows w1 rows1 : length (sos m) = length rows -> apply_padding c m w rows = Ok (w1, rows1) ->
  length rows1 = length rows /\ Forall (fun n => n <= Z.of_nat w1) (lens m).
Proof.
  intros HS H. unfold apply_padding in H. destruct (max_length m) as [mx|] eqn:Em; [|discriminate]. cbn [bind] in H.
  assert (HB : Forall (fun n => n <= mx) (lens m)). { apply Forall_forall. intros n Hn. now apply (zmax_bound _ _ n Em). }
  match goal with H : context [if 0 <? _ then ?a else ?b] |- _ => set (r := if 0 <? mx - Z.of_nat w then a else b) in H end.
  destruct r as [(w2, rows2)|] eqn:Er; [|discriminate]. cbn [bind] in H.
  assert (R : length rows2 = length rows /\ mx <= Z.of_nat w2).
  { unfold r in Er. destruct (Z.ltb_spec 0 (mx - Z.of_nat w)).
    - destruct (all_starting m); [destruct (_ <=? _)%Z; [|discriminate]|]; injection Er as <- <-; rewrite map_length; lia.
    - injection Er as <- <-. lia. }
  clear r Er. injection H as <- <-. destruct R as (R1 & R2). split.
  - destruct (any_starting m && negb (all_starting m)); [|exact R1]. rewrite map_length, length_zip; congruence.
  - eapply Forall_impl; [|exact HB]. cbv beta. intros; lia.
Qed.

Lemma conv1d_described (c : conv_cfg (list V)) b b' tmp : valid_cfg c -> conv1d c b = Ok (b', tmp) -> described b -> described b'.
Proof.
  intros (Hk & Hd & Hs) H (h & rs & EM & LR & HR). unfold conv1d in H. rewrite EM in H.
  set (m1 := if (0 <? padn c)%nat then _ else _) in H.
  assert (HM1 : exists rs1, m1 = of_rows h rs1 /\ length rs1 = length rs /\ Forall (fun r => 0 <= rlen r) rs1 /\
    ((0 <? padn c)%nat && negb (all_starting_and_ending m1) = false -> Forall (fun r => rlen r <= Z.of_nat (bw b + 2 * padn c)) rs1)).
  { unfold m1. destruct (Nat.ltb_spec 0 (padn c)) as [Hp|Hp].
    - destruct (pad_lens_bounds b h rs (Z.of_nat (padn c)) LR HR ltac:(lia)) as (P1 & P2 & P3).
      destruct (with_lens_rows h rs _ P1) as (rs1 & E1 & E2 & E3). exists rs1. split; [exact E1|]. split; [exact E2|]. split.
      + apply (Forall_map rlen (fun z => 0 <= z)). now rewrite E3.
      + intros Ha. cbn [andb] in Ha. apply negb_false_iff in Ha. specialize (P3 Ha). apply (Forall_map rlen (fun z => z <= _)). rewrite E3.
        eapply Forall_impl; [|exact P3]. cbv beta. intros; lia.
    - exists rs. split; [reflexivity|]. split; [reflexivity|]. split; [|intros _]; (eapply Forall_impl; [|exact HR]); cbv beta; intros; lia. }
  clearbody m1. destruct HM1 as (rs1 & -> & L1 & N1 & U1).
  set (q := (0 <? padn c)%nat && negb (all_starting_and_ending (of_rows h rs1))) in *.
  match type of H with bind ?r _ = _ => destruct r as [((w1, rows1), np)|] eqn:Er; [|discriminate] end. cbn [bind] in H.
  assert (R : length rows1 = length (bd b) /\ Forall (fun r => rlen r <= Z.of_nat (w1 + 2 * np)) rs1).
  { destruct q.
    - destruct (apply_padding c (of_rows h rs1) (bw b) (bd b)) as [(w2, rows2)|] eqn:Ea; [|discriminate]. cbn [bind] in Er. injection Er as <- <- <-.
      destruct (apply_padding_shape c (of_rows h rs1) (bw b) (bd b) w2 rows2 ltac:(cbn [sos of_rows]; rewrite map_length; congruence) Ea) as (A1 & A2). split; [exact A1|].
      cbn [lens of_rows] in A2. rewrite Forall_map in A2. eapply Forall_impl; [|exact A2]. cbv beta. intros; lia.
    - injection Er as <- <- <-. split; [reflexivity|]. now apply U1. }
  clear Er. destruct R as (R1 & R2).
  destruct (temp_buffer _ _ _ _) as [tmp0|]; [|discriminate]. cbn [bind] in H.
  destruct (torch_conv1d c np w1 rows1) as [(wo, out)|] eqn:Ec; [|discriminate]. cbn [bind] in H.
  destruct (sequence_mask _ _ _) as [mask|] eqn:Emask; [|discriminate]. cbn [bind] in H. injection H as <- <-.
  unfold torch_conv1d in Ec. set (eff := Z.of_nat (dilat c) * (Z.of_nat (ksize c) - 1) + 1) in Ec.
  destruct (Z.ltb_spec (Z.of_nat (w1 + 2 * np)) eff) as [|He]; [discriminate|]. injection Ec as <- <-.
  assert (Hq : 0 <= (Z.of_nat (w1 + 2 * np) - eff) / Z.of_nat (strd c)) by (apply Z.div_pos; lia).
  set (wo := Z.to_nat ((Z.of_nat (w1 + 2 * np) - eff) / Z.of_nat (strd c) + 1)) in *.
  assert (Ewo : Z.of_nat wo = (Z.of_nat (w1 + 2 * np) - eff) / Z.of_nat (strd c) + 1) by (unfold wo; lia).
  destruct (mask_shape _ wo mask Emask ltac:(lia)) as (Lm & _).
  destruct (with_lens_rows h rs1 (map (output_length c) (lens (of_rows h rs1)))) as (rs2 & E1 & E2 & E3); [cbn; now rewrite !map_length|].
  exists h, rs2. cbn [bm bd bw]. split; [exact E1|].
  cbn [lens of_rows] in Lm. rewrite !map_length in Lm.
  split; [rewrite map_length, length_zip; rewrite ?map_length; lia|].
  apply (Forall_map rlen (fun z => 0 <= z <= Z.of_nat wo)). rewrite E3. cbn [lens of_rows]. rewrite !Forall_map.
  assert (Ek : kernel_width c = eff) by (unfold kernel_width, eff; ring).
  rewrite Forall_forall in *. intros r Hr. specialize (R2 r Hr). specialize (N1 r Hr). cbv beta in R2, N1. cbv beta. unfold output_length. rewrite Ek.
  assert ((rlen r - eff) / Z.of_nat (strd c) <= (Z.of_nat (w1 + 2 * np) - eff) / Z.of_nat (strd c)) by (apply Z.div_le_mono; lia). lia.
Qed.

End Described.

Section Net.
Context {V : Type} (A : arith V).

Lemma nth_error_ext {X} : forall (a b : list X), (forall i, nth_error a i = nth_error b i) -> a = b.
Proof.
  induction a as [|x a IH]; intros [|y b] H; auto; try (specialize (H 0%nat); discriminate).
  pose proof (H 0%nat) as H0. injection H0 as <-. f_equal. apply IH. intros i. apply (H (S i)).
Qed.

Lemma network_out k c n cg ks s d p : module_ok (V := V) k c n cg ks s d p -> out_channels (NConv k) = n.
Proof. intros HM. cbn [out_channels]. rewrite (mk_weight _ _ _ _ _ _ _ _ HM). cbn [nth]. apply Nat2Z.id. Qed.

Lemma column_of c w t rows i row p col : holds_data (V := V) c w t rows -> nth_error rows i = Some row -> nth_error row p = Some col ->
  map (fun j => at_ t [Z.of_nat i; j; Z.of_nat p]) (dim_positions (Z.of_nat c)) = col.
Proof.
  intros (_ & HS & HV) Hi Hp.
  assert (HL : length col = c).
  { unfold sized in HS. rewrite Forall_forall in HS. destruct (HS row (nth_error_In _ _ Hi)) as (_ & H). rewrite Forall_forall in H. apply H, (nth_error_In _ _ Hp). }
  unfold dim_positions. rewrite Nat2Z.id, map_map. subst c. apply nth_error_ext. intros j.
  rewrite nth_error_map. destruct (nth_error col j) as [v|] eqn:Ej.
  - assert (Hj := proj1 (nth_error_Some col j) ltac:(rewrite Ej; discriminate)).
    rewrite (nth_error_nth' _ 0%nat) by (rewrite seq_length; exact Hj). rewrite seq_nth by exact Hj. cbn [option_map Nat.add]. f_equal. eapply HV; eauto.
  - apply nth_error_None in Ej. rewrite (proj2 (nth_error_None (seq 0 (length col)) j)); [reflexivity|]. now rewrite seq_length.
Qed.

Lemma step_tensor_ok c n g w t rows : holds_data (V := V) c w t rows -> (forall l, length l = c -> length (g l) = n) ->
  holds_data n w (step_tensor A n g t) (map (map g) rows).
Proof.
  intros HD Hg. pose proof HD as (E & HS & HV). unfold holds_data, step_tensor. cbn [shp]. unfold size. rewrite E. cbn [nth]. rewrite map_length.
  split; [reflexivity|]. split.
  - unfold sized in *. rewrite Forall_map. eapply Forall_impl; [|exact HS]. intros r (H1 & H2). rewrite map_length. split; [exact H1|].
    rewrite Forall_map. eapply Forall_impl; [|exact H2]. cbv beta. auto.
  - intros i row p col j v Hi Hp Hj. rewrite nth_error_map in Hi. destruct (nth_error rows i) as [r|] eqn:Ei; [|discriminate]. injection Hi as <-.
    rewrite nth_error_map in Hp. destruct (nth_error r p) as [cl|] eqn:Ep; [|discriminate]. injection Hp as <-.
    cbn [at_ nth]. rewrite (column_of c w t rows i r p cl HD Ei Ep), Nat2Z.id. now apply nth_error_nth.
Qed.

Lemma step_call_ok c n g f x b : holds (V := V) c f x b -> (forall l, length l = c -> length (g l) = n) ->
  exists y, step_call A n g x = Ok y /\ holds n f y (map_call g b).
Proof.
  intros [HD HN HMe] Hg. unfold step_call, ndim. rewrite (proj1 HD). cbn [length Nat.eqb]. eexists. split; [reflexivity|].
  constructor; cbn [tn names smeta map_call bw bd bm]; auto. now apply (step_tensor_ok c).
Qed.

Lemma map_described g (b : batch (list V)) : described b -> described (map_call g b).
Proof. intros (h & rs & E & L & H). exists h, rs. cbn [map_call bm bd bw]. rewrite map_length. auto. Qed.

Lemma conv_layer_ok k c n q f (st : tbuffers V) (st' : buffers (list V)) x b : module_ok k c n (z_cg q) (z_ks q) (z_s q) (z_d q) (z_p q) ->
  mask_clears A -> channel_name f -> same_buffers c st st' -> holds c f x b -> described b ->
  agree (fun u v => (holds n f (fst u) (fst v) /\ described (fst v)) /\ same_buffers c (snd u) (snd v))
    (conv_call_t A k st x) (conv_call (columns_cfg A k c n (z_cg q) (z_ks q) (z_s q) (z_d q) (z_p q)) st' b).
Proof.
  intros HM HA Hf HB HX HD. pose proof (call_ok A k c n _ _ _ _ _ HM f st st' x b HA Hf HB HX HD) as HC.
  pose proof (pre_hook_ok A k c n (z_cg q) (z_ks q) (z_s q) (z_d q) (z_p q) f st st' x b Hf HB HX HD) as HP.
  destruct (conv_call_t A k st x) as [(y, st1)|e], (conv_call _ st' b) as [(b1, st1')|e'] eqn:E; cbn [agree fst snd] in HC |- *; auto.
  destruct HC as (H1 & H2). split; [|exact H2]. split; [exact H1|].
  unfold conv_call in E. set (C := columns_cfg A k c n (z_cg q) (z_ks q) (z_s q) (z_d q) (z_p q)) in *.
  destruct (pre_hook C st' b) as [b0|]; [|discriminate].
  destruct (pre_hook_t A _ st x) as [y0|]; [|contradiction]. cbn [agree] in HP. cbn [bind] in E.
  destruct (conv1d C b0) as [(b2, tmp)|] eqn:E2; [|discriminate]. cbn [bind] in E. injection E as <- _.
  eapply conv1d_described; [|exact E2|apply HP]. apply (cfg_valid A k c n _ _ _ _ _ HM).
Qed.

Lemma net_call_ok f : mask_clears A -> channel_name f -> forall c z Ls qs c' z', network A c z Ls qs c' z' ->
  forall sts sts' x b, net_buffers c Ls sts sts' -> holds c f x b -> described b ->
  agree (fun u v => holds c' f (fst u) (fst v) /\ net_buffers c Ls (snd u) (snd v))
    (net_call A Ls sts x) (stack_call (column_layers A c Ls qs) sts' b).
Proof.
  intros HA Hf c z Ls qs c' z' HN. induction HN as [c z|c n c' z' k q Ls qs HM Hs HN IH|c z n g c' z' q Ls qs Hg HN IH]; intros sts sts' x b HB HX HD.
  - destruct sts, sts'; cbn in HB; try contradiction. cbn. auto.
  - destruct sts as [|st sts], sts' as [|st' sts']; cbn [net_buffers] in HB; try contradiction. destruct HB as (B1 & B2).
    cbn [net_call column_layers stack_call net_layer_call layer_call]. rewrite (network_out _ _ _ _ _ _ _ _ HM) in *.
    eapply agree_bind; [apply (conv_layer_ok k c n q f st st' x b); auto|].
    intros (y, st1) (b1, st1') ((H1 & H2) & H3). cbn [fst snd] in H1, H2, H3.
    eapply agree_bind; [apply (IH sts sts' y b1); auto|]. intros (u, s1) (v, s1') (H4 & H5). cbn [agree fst snd net_buffers] in *.
    rewrite (network_out _ _ _ _ _ _ _ _ HM). auto.
  - destruct sts as [|st sts], sts' as [|st' sts']; cbn [net_buffers] in HB; try contradiction. destruct HB as (B1 & B2).
    cbn [net_call column_layers stack_call net_layer_call layer_call out_channels] in *.
    destruct (step_call_ok c n g f x b HX Hg) as (y & -> & HY). cbn [bind].
    eapply agree_bind; [apply (IH sts sts' y (map_call g b)); auto using map_described|]. intros (u, s1) (v, s1') (H4 & H5). cbn [agree fst snd net_buffers] in *. auto.
Qed.

Lemma net_run_ok f c z Ls qs c' z' : mask_clears A -> channel_name f -> network A c z Ls qs c' z' ->
  forall xs bs sts sts', net_buffers c Ls sts sts' -> Forall2 (holds c f) xs bs -> Forall described bs ->
  agree (fun u v => Forall2 (holds c' f) (fst u) (fst v) /\ net_buffers c Ls (snd u) (snd v))
    (net_run A Ls sts xs) (stack_run (column_layers A c Ls qs) sts' bs).
Proof.
  intros HA Hf HN. induction xs as [|x xs IH]; intros bs sts sts' HB HF HD; inversion HF; subst; [cbn; auto|]. inversion HD; subst.
  cbn [net_run stack_run]. eapply agree_bind; [eapply (net_call_ok f HA Hf c z Ls qs c' z' HN sts sts'); eauto|]. intros (u, s1) (v, s1') (K1 & K2). cbn [fst snd] in *.
  eapply agree_bind; [apply (IH _ s1 s1'); auto|]. intros (us, s2) (vs, s2') (K3 & K4). cbn [fst snd agree] in *. auto.
Qed.

Lemma net_fresh_ok c z Ls qs c' z' : network A c z Ls qs c' z' -> net_buffers c Ls (net_fresh Ls) (fresh (column_layers A c Ls qs)).
Proof.
  intros HN. induction HN as [c z|c n c' z' k q Ls qs HM Hs HN IH|c z n g c' z' q Ls qs Hg HN IH]; cbn [net_fresh map column_layers fresh net_buffers]; auto.
  - rewrite (network_out _ _ _ _ _ _ _ _ HM). split; [intros i; exact I|exact IH].
Qed.

Lemma network_zero c z Ls qs c' z' : network A c z Ls qs c' z' -> zero_preserving z (column_layers A c Ls qs) z' /\ Forall good_layer (column_layers A c Ls qs).
Proof.
  intros HN. induction HN as [c z|c n c' z' k q Ls qs HM Hs HN (I1 & I2)|c z n g c' z' q Ls qs Hg HN (I1 & I2)]; cbn [column_layers zero_preserving]; auto.
  - rewrite (network_out _ _ _ _ _ _ _ _ HM). split; [split; [reflexivity|exact I1]|]. constructor; [|exact I2]. cbn [good_layer].
    split; [apply (cfg_valid A k c n _ _ _ _ _ HM)|exact Hs].
  - split; [exact I1|]. constructor; [exact I|exact I2].
Qed.

Lemma convolution_sizes k n cg ks s d p cols out : convolution_of A k n cg ks s d p cols out -> Forall (fun col => length col = n) out.
Proof. intros (_ & H). apply Forall_forall. intros col Hc. apply In_nth_error in Hc as (i & Hi). now apply (H i). Qed.

Lemma network_offline c z Ls qs c' z' : network A c z Ls qs c' z' -> forall cols, Forall (fun col => length col = c) cols ->
  network_value A Ls qs cols (stack_offline (column_layers A c Ls qs) cols).
Proof.
  unfold stack_offline. intros HN. induction HN as [c z|c n c' z' k q Ls qs HM Hs HN IH|c z n g c' z' q Ls qs Hg HN IH]; intros cols HC; cbn [column_layers fold_left network_value layer_offline].
  - reflexivity.
  - rewrite (network_out _ _ _ _ _ _ _ _ HM).
    pose proof (offline_convolution A k c n (z_cg q) (z_ks q) (z_s q) (z_d q) (z_p q) cols HC) as HO. exists (offline (columns_cfg A k c n (z_cg q) (z_ks q) (z_s q) (z_d q) (z_p q)) cols).
    split; [exact HO|]. apply IH. eapply convolution_sizes; eauto.
  - apply IH. rewrite Forall_map. eapply Forall_impl; [|exact HC]. cbv beta. auto.
Qed.

Theorem net_stream f c z Ls qs c' z' sched xs ys sts' : mask_clears A -> channel_name f -> network A c z Ls qs c' z' ->
  good_schedule (map trows sched) -> Forall tight sched ->
  (forall i, survives (column_layers A c Ls qs) (stream_of i (map trows sched))) ->
  Forall2 (holds c f) xs (map (tensor_of z) sched) ->
  net_run A Ls (net_fresh Ls) xs = Ok (ys, sts') ->
  exists outs, Forall2 (holds c' f) ys (map (tensor_of z') outs) /\
    Forall2 (Forall2 follows) (map trows sched) (map trows outs) /\
    forall i l1 l l2, stream_of i (map trows sched) = l1 ++ l ++ l2 -> complete l ->
      exists o1 o o2, stream_of i (map trows outs) = o1 ++ o ++ o2 /\ length o1 = length l1 /\ length o = length l /\
        network_value A Ls qs (data_of l) (data_of o).
Proof.
  intros HA Hf HN HG HT HS HX HR.
  assert (HD : Forall described (map (tensor_of z) sched)).
  { rewrite Forall_map. eapply Forall_impl; [|exact HT]. intros t Ht. apply tensor_described. unfold tight in Ht. lia. }
  pose proof (net_run_ok f c z Ls qs c' z' HA Hf HN xs _ _ _ (net_fresh_ok _ _ _ _ _ _ HN) HX HD) as HAg. rewrite HR in HAg.
  destruct (stack_run _ _ _) as [(bs, st2)|e] eqn:ER; cbn [agree fst snd] in HAg; [|contradiction]. destruct HAg as (H1 & _).
  destruct (network_zero _ _ _ _ _ _ HN) as (N1 & N2).
  destruct (stack_offline_equiv _ z z' sched bs st2 N2 N1 HG HT HS ER) as (outs & -> & H2 & H3).
  exists outs. split; [exact H1|]. split; [exact H2|]. intros i l1 l l2 Hi Hl.
  destruct (H3 i l1 l l2 Hi Hl) as (o1 & o & o2 & E1 & E2 & E3 & E4). exists o1, o, o2. split; [exact E1|]. split; [exact E2|]. split; [exact E3|].
  rewrite E4. eapply network_offline; [exact HN|]. unfold data_of. apply Forall_forall. intros col Hc. apply in_concat in Hc as (cols & Hcols & Hc).
  apply in_map_iff in Hcols as (r & <- & Hr).
  pose proof (sched_columns c f xs _ sched HX i r) as H. rewrite Forall_forall in H. apply H; auto. rewrite Hi. apply in_or_app. right. apply in_or_app. now left.
Qed.

Theorem net_plain_ok c z Ls qs c' z' : network A c z Ls qs c' z' -> forall w t rows, holds_data c w t rows ->
  match net_width Ls qs w with
  | None => net_plain A Ls t = Err RuntimeError
  | Some w' => exists t' outs, net_plain A Ls t = Ok t' /\ holds_data c' w' t' outs /\ Forall2 (network_value A Ls qs) rows outs
  end.
Proof.
  intros HN. induction HN as [c z|c n c' z' k q Ls qs HM Hs HN IH|c z n g c' z' q Ls qs Hg HN IH]; intros w t rows HD; cbn [net_width net_plain].
  - exists t, rows. split; [reflexivity|]. split; [exact HD|]. clear HD. induction rows; constructor; auto. reflexivity.
  - rewrite (int_padding_ok k c n _ _ _ _ _ HM). cbn [bind]. pose proof (plain_module A k c n _ _ _ _ _ HM w t rows HD) as HP.
    destruct (w + 2 * z_p q <? z_d q * (z_ks q - 1) + 1)%nat; [now rewrite HP|].
    destruct HP as (u & mids & -> & HU & HV). cbn [bind]. specialize (IH _ u mids HU). destruct (net_width _ _ _) as [w'|]; [|exact IH].
    destruct IH as (t' & outs & E & H1 & H2). exists t', outs. split; [exact E|]. split; [exact H1|].
    clear -HV H2 HM. revert outs H2. induction HV; intros outs H2; inversion H2; subst; constructor; auto. cbn [network_value].
    rewrite (network_out _ _ _ _ _ _ _ _ HM). eauto.
  - specialize (IH w _ _ (step_tensor_ok c n g w t rows HD Hg)). destruct (net_width _ _ _) as [w'|]; [|exact IH].
    destruct IH as (t' & outs & E & H1 & H2). exists t', outs. split; [exact E|]. split; [exact H1|].
    clear -H2. revert outs H2. induction rows; intros outs H2; cbn [map] in H2; inversion H2; subst; constructor; auto.
Qed.

Lemma convolution_unique k n cg ks s d p cols o1 o2 : convolution_of A k n cg ks s d p cols o1 -> convolution_of A k n cg ks s d p cols o2 -> o1 = o2.
Proof.
  intros (L1 & H1) (L2 & H2). apply nth_error_ext. intros i. destruct (nth_error o1 i) as [c1|] eqn:E1.
  - assert (Hi := proj1 (nth_error_Some o1 i) ltac:(rewrite E1; discriminate)). rewrite L1, <- L2 in Hi.
    destruct (nth_error o2 i) as [c2|] eqn:E2; [|apply nth_error_None in E2; lia]. f_equal.
    destruct (H1 i c1 E1) as (K1 & V1), (H2 i c2 E2) as (K2 & V2). apply nth_error_ext. intros o.
    destruct (nth_error c1 o) as [v1|] eqn:F1.
    + assert (Ho := proj1 (nth_error_Some c1 o) ltac:(rewrite F1; discriminate)). rewrite K1, <- K2 in Ho.
      destruct (nth_error c2 o) as [v2|] eqn:F2; [|apply nth_error_None in F2; lia]. f_equal. now rewrite (V1 o v1 F1), (V2 o v2 F2).
    + symmetry. apply nth_error_None. apply nth_error_None in F1. lia.
  - symmetry. apply nth_error_None. apply nth_error_None in E1. lia.
Qed.

Lemma network_unique Ls : forall qs cols o1 o2, network_value A Ls qs cols o1 -> network_value A Ls qs cols o2 -> o1 = o2.
Proof.
  induction Ls as [|L Ls IH]; intros qs cols o1 o2 H1 H2; [cbn in *; congruence|]. destruct L as [k|n g], qs as [|q qs]; cbn [network_value] in H1, H2; try contradiction.
  - destruct H1 as (m1 & C1 & N1), H2 as (m2 & C2 & N2). rewrite (convolution_unique _ _ _ _ _ _ _ _ _ _ C1 C2) in N1. eauto.
  - eauto.
Qed.

Theorem net_same_as_plain f c z Ls qs c' z' sched xs ys sts' : mask_clears A -> channel_name f -> network A c z Ls qs c' z' ->
  good_schedule (map trows sched) -> Forall tight sched ->
  (forall i, survives (column_layers A c Ls qs) (stream_of i (map trows sched))) ->
  Forall2 (holds c f) xs (map (tensor_of z) sched) ->
  net_run A Ls (net_fresh Ls) xs = Ok (ys, sts') ->
  exists outs, Forall2 (holds c' f) ys (map (tensor_of z') outs) /\
    Forall2 (Forall2 follows) (map trows sched) (map trows outs) /\
    forall i l1 l l2 t t', stream_of i (map trows sched) = l1 ++ l ++ l2 -> complete l ->
      holds_data c (length (data_of l)) t [data_of l] -> net_plain A Ls t = Ok t' ->
      exists o1 o o2, stream_of i (map trows outs) = o1 ++ o ++ o2 /\ length o1 = length l1 /\ length o = length l /\
        holds_data c' (length (data_of o)) t' [data_of o].
Proof.
  intros HA Hf HN HG HT HS HX HR. destruct (net_stream f c z Ls qs c' z' sched xs ys sts' HA Hf HN HG HT HS HX HR) as (outs & H1 & H2 & H3).
  exists outs. split; [exact H1|]. split; [exact H2|]. intros i l1 l l2 t t' Hi Hl Ht HP.
  destruct (H3 i l1 l l2 Hi Hl) as (o1 & o & o2 & E1 & E2 & E3 & E4). exists o1, o, o2. split; [exact E1|]. split; [exact E2|]. split; [exact E3|].
  pose proof (net_plain_ok c z Ls qs c' z' HN _ t _ Ht) as HW. destruct (net_width _ _ _) as [w'|]; [|congruence].
  destruct HW as (t2 & os & E5 & H5 & H6). rewrite HP in E5. injection E5 as <-. inversion H6 as [|? o' ? ? K1 K2]; subst. inversion K2; subst.
  rewrite (network_unique _ _ _ _ _ K1 E4) in H5. pose proof H5 as (_ & HS5 & _). unfold sized in HS5. inversion HS5 as [|? ? (EL & _) _]; subst. exact H5.
Qed.

End Net.

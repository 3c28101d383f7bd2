(** Proofs about residual connections around streaming convolutions. *)

From Coq Require Import String List ZArith Bool Lia.
From Coq Require Import ZifyBool.
From Verif Require Import Py Meta MetaSpec MetaProofs MetaSplitProofs Pad Conv ConvSpec ConvProofs ConvRunProofs ConvStreamProofs ConvMoreProofs
  Residual ResidualSpec.
From Verif Require Dispatch.
Import ListNotations.
Open Scope nat_scope.

Section ResidualProofs.
Context {V : Type}.
Implicit Types (c : conv_cfg V) (st : buffers V) (x : batch V) (plus : V -> V -> V).

Lemma zip_combine {A B} : forall (l1 : list A) (l2 : list B), zip l1 l2 = combine l1 l2.
Proof. induction l1; intros [|b l2]; simpl; auto. now rewrite IHl1. Qed.

Lemma stretch_id (r : list V) w : length r = w -> stretch w r = r.
Proof. intros <-. destruct r as [|v [|]]; reflexivity. Qed.

Lemma combine_app {A B} : forall (l1 : list A) (m1 : list B) l2 m2, length l1 = length m1 ->
  combine (l1 ++ l2) (m1 ++ m2) = combine l1 m1 ++ combine l2 m2.
Proof. induction l1; intros [|b m1] l2 m2 H; simpl in *; try discriminate; auto. f_equal. apply IHl1. lia. Qed.

Lemma combine_repeat {A B} (a : A) (b : B) n : combine (repeat a n) (repeat b n) = repeat (a, b) n.
Proof. induction n; simpl; auto. now f_equal. Qed.

Lemma repeat_map {A B} (f : A -> B) a n : map f (repeat a n) = repeat (f a) n.
Proof. induction n; simpl; auto. now f_equal. Qed.

Lemma skip_sum_fill plus z z' (x y : list V) w : length x = length y ->
  skip_sum plus (x ++ repeat z (w - length x)) (y ++ repeat z' (w - length y))
  = skip_sum plus x y ++ repeat (plus z z') (w - length (skip_sum plus x y)).
Proof.
  intros H. unfold skip_sum. rewrite combine_app by auto. rewrite map_app. f_equal.
  rewrite map_length, combine_length, H, Nat.min_id, combine_repeat, repeat_map. reflexivity.
Qed.

Lemma leqb_refl {A} (eqb : A -> A -> bool) : (forall a, eqb a a = true) -> forall l, list_eqb eqb l l = true.
Proof. intros H. induction l; simpl; auto. now rewrite H. Qed.

Lemma meta_eq_refl m : chs m = None -> meta_eq m m = Ok true.
Proof.
  intros H. unfold meta_eq. rewrite H, !leqb_refl; auto using String.eqb_refl, Z.eqb_refl, Bool.eqb_reflx.
Qed.

Lemma meta_eq_lens a b e : chs a = None -> meta_eq a b = Ok e -> e = true /\ lens a = lens b.
Proof.
  intros H. unfold meta_eq. rewrite H. 
  destruct (list_eqb String.eqb (ids a) (ids b)); cbn [andb]; [|discriminate].
  destruct (list_eqb Bool.eqb (sos a) (sos b)); cbn [andb]; [|discriminate].
  destruct (list_eqb Bool.eqb (eos a) (eos b)); cbn [andb]; [|discriminate].
  destruct (list_eqb Z.eqb (lens a) (lens b)) eqn:E; cbn [andb]; [|discriminate].
  destruct (chs b); [discriminate|]. intros G; inversion G. split; auto. apply (list_eqb_eq Z.eqb Z.eqb_eq). exact E.
Qed.

Lemma nwin_same c n : same_size c -> nwin c n = n - 2 * padn c.
Proof.
  intros [Hs Hk]. unfold nwin. rewrite Hs, Hk. destruct (n <? 2 * padn c + 1) eqn:E; [lia|]. rewrite Nat.div_1_r. lia.
Qed.

Lemma sum_tensors plus c w rs ds m :
  chs m = None -> Forall2 (fun r d => length (cdat r) = length d /\ length d <= w) rs ds ->
  sum_call plus (mkBatch w (map (fun r => cdat r ++ repeat (zin c) (w - length (cdat r))) rs) m)
                (mkBatch w (map (fun d => d ++ repeat (zout c) (w - length d)) ds) m)
  = Ok (mkBatch w (map (fun u : chunk V * list V =>
          skip_sum plus (cdat (fst u)) (snd u) ++ repeat (plus (zin c) (zout c)) (w - length (skip_sum plus (cdat (fst u)) (snd u))))
          (combine rs ds)) m).
Proof.
  intros Hm HF. unfold sum_call. cbn [bw bd bm]. unfold broadcast_width. rewrite Nat.eqb_refl. cbn [bind Dispatch.all_eq].
  rewrite meta_eq_refl by auto. cbn [bind negb]. f_equal. f_equal. rewrite zip_combine.
  induction HF as [|r d rs ds [H1 H2] HF IH]; [reflexivity|]. cbn [map combine fst snd].
  rewrite IH. f_equal. rewrite zip_combine, !stretch_id by (rewrite app_length, repeat_length; lia).
  now apply skip_sum_fill.
Qed.

(** Nothing is cut off: the sum is the one of the unmodified network. *)
Theorem residual_aligned plus c st t : valid_cfg c -> same_size c ->
  padn c = 0 \/ (forall r, In r (trows t) -> csos r = true /\ ceos r = true) ->
  trows t <> [] -> longest (trows t) <= tw t -> 0 < tw t -> th t = false ->
  exists st', residual_call plus c st (tensor_of (zin c) t)
    = Ok (tensor_of (plus (zin c) (zout c))
            (mkTens (tw t) (th t) (map (fun r => set_data r (offline_residual plus c (cdat r))) (trows t))), st').
Proof.
  intros Hv Hss Hc Hne Hlw Hw Hth. set (rs := trows t) in *.
  assert (Hx : tensor_of (zin c) t = batch_with (zin c) (tw t) false rs) by (unfold tensor_of; now rewrite Hth).
  rewrite Hx. set (x := batch_with (zin c) (tw t) false rs).
  assert (Has : all_starting (bm x) = forallb csos rs).
  { unfold all_starting, x. cbn [bm batch_with sos of_rows]. rewrite map_map. cbn [rsos]. apply all_true_map. }
  assert (Hpre : (1 <? kernel_width c)%Z && negb (all_starting (bm x)) = false).
  { rewrite kernel_width_eq by auto. destruct Hc as [Hp|Hb].
    - destruct Hss as [_ Hk]. rewrite Hp in Hk. replace (1 <? Z.of_nat (kspan c))%Z with false by lia. reflexivity.
    - rewrite Has. replace (forallb csos rs) with true; [apply andb_false_r|]. symmetry. apply forallb_forall. intros r Hr. now apply Hb. }
  assert (Hroom : roomy c (tw t) rs).
  { intros H1 H2 H3. destruct Hc as [Hp|Hb]; [lia|]. exfalso.
    assert (forallb ceos rs = true) by (apply forallb_forall; intros r Hr; now apply Hb). congruence. }
  assert (Hpd : forall r, In r rs -> padded c r = zeros c ++ cdat r ++ zeros c).
  { intros r Hr. unfold padded. destruct Hc as [Hp|Hb].
    - unfold zeros. rewrite Hp. simpl. destruct (csos r), (ceos r); reflexivity.
    - destruct (Hb r Hr) as [-> ->]. reflexivity. }
  assert (Hcw : cwidth c (tw t) rs = tw t + 2 * padn c).
  { unfold cwidth. destruct Hc as [Hp|Hb].
    - rewrite Hp. assert (plen c rs <= tw t).
      { unfold plen. apply lmax_le. intros r Hr. rewrite padded_length, Hp. pose proof (longest_ge rs r Hr). destruct (csos r), (ceos r); lia. }
      destruct (forallb csos rs && forallb ceos rs); lia.
    - replace (forallb csos rs) with true; [|symmetry; apply forallb_forall; intros r Hr; now apply Hb].
      replace (forallb ceos rs) with true; [reflexivity|symmetry; apply forallb_forall; intros r Hr; now apply Hb]. }
  assert (Hcv : conv1d c x = Ok (batch_with (zout c) (tw t) false (map (convolved c) rs), temps c rs)).
  { unfold x. rewrite conv1d_batch by auto. rewrite Hcw. pose proof Hss as [_ Hk].
    replace (tw t + 2 * padn c <? kspan c) with false by lia. rewrite nwin_same by auto.
    replace (tw t + 2 * padn c - 2 * padn c) with (tw t) by lia. reflexivity. }
  assert (Hpr : pre_hook c st x = Ok x) by (unfold pre_hook; now rewrite Hpre).
  assert (Hd : forall r, In r rs -> cdat (convolved c r) = offline c (cdat r) /\ length (offline c (cdat r)) = length (cdat r)).
  { intros r Hr. split.
    - unfold convolved. cbn [set_data cdat]. rewrite (Hpd r Hr). reflexivity.
    - unfold offline. rewrite conv_seq_length, nwin_same, !app_length by auto. unfold zeros. rewrite repeat_length. lia. }
  set (y := batch_with (zout c) (tw t) false (map (convolved c) rs)).
  exists (post_hook st (bm y) (temps c rs)).
  unfold residual_call, conv_call. rewrite Hpr. cbn [bind]. rewrite Hcv. cbn [bind]. fold y.
  unfold input_after. rewrite Hpr. cbn [bind]. rewrite Hcv. cbn [bind]. fold y. rewrite Hpre.
  set (m1 := if 0 <? padn c then _ else bm x).
  set (inplace := (0 <? padn c) && _ && _ && _ && _).
  assert (Hin : inplace = false).
  { unfold inplace. destruct Hc as [Hp|Hb]; [now rewrite Hp|].
    assert (E : all_starting_and_ending m1 = true).
    { assert (Es : all_starting_and_ending (bm x) = true).
      { unfold all_starting_and_ending, all_starting, all_ending, x. cbn [bm batch_with sos eos of_rows]. rewrite !map_map.
        cbn [rsos reos]. rewrite !all_true_map. apply andb_true_iff. split; apply forallb_forall; intros r Hr; now apply Hb. }
      unfold m1. destruct (0 <? padn c); exact Es. }
    rewrite E. cbn [negb]. now rewrite andb_false_r. }
  rewrite Hin. cbv zeta. cbn [bind].
  assert (Hmeta : bm y = of_rows false (map (fun r => mkRow (cid r) (csos r) (ceos r) (Z.of_nat (length (cdat r))) (cch r)) rs)).
  { unfold y. cbn [bm batch_with]. f_equal. rewrite map_map. apply map_ext_in. intros r Hr. cbn [convolved set_data cid csos ceos cch].
    destruct (Hd r Hr) as [E1 E2]. change (conv_seq c (padded c r)) with (cdat (convolved c r)). now rewrite E1, E2. }
  replace y with (mkBatch (tw t) (map (fun d => d ++ repeat (zout c) (tw t - length d)) (map (fun r => cdat (convolved c r)) rs)) (bm y)) at 2
    by (unfold y, batch_with; rewrite !map_map; reflexivity).
  unfold x. cbn [bw bd batch_with].
  rewrite sum_tensors.
  - cbn [bind]. f_equal. f_equal. unfold tensor_of. rewrite Hth. cbn [tw th trows]. unfold batch_with. f_equal.
    + rewrite <- (map_id rs) at 1. rewrite <- zip_combine, zip_map_l, !map_map. cbn [fst snd]. apply map_ext_in. intros r Hr.
      cbn [set_data cdat]. unfold offline_residual. destruct (Hd r Hr) as [E1 _]. now rewrite E1.
    + rewrite Hmeta. f_equal. rewrite map_map. apply map_ext_in. intros r Hr. cbn [set_data cid csos ceos cch cdat]. f_equal. f_equal.
      unfold offline_residual, skip_sum. rewrite map_length, combine_length. destruct (Hd r Hr) as [_ E2]. lia.
  - rewrite Hmeta. reflexivity.
  - assert (G : forall q, In q rs -> In q rs) by auto. revert G. generalize rs at 1 3 4 as q. induction q as [|r q IH]; intros G; [constructor|].
    cbn [map]. constructor; [|apply IH; intros; apply G; now right].
    destruct (Hd r (G r (or_introl eq_refl))) as [E1 E2]. rewrite E1. split; [lia|].
    pose proof (longest_ge rs r (G r (or_introl eq_refl))). lia.
Qed.

(** Streams that start together and do not end with their first chunk. *)
Theorem residual_first plus c st t : valid_cfg c -> same_size c -> 0 < padn c ->
  trows t <> [] -> tight t -> (forall r, In r (trows t) -> csos r = true /\ ceos r = false) ->
  tw t <> padn c + 1 -> residual_call plus c st (tensor_of (zin c) t) = Err RuntimeError.
Proof.
  intros Hv Hss Hp Hne Ht Hb Hw. set (rs := trows t) in *.
  change (tensor_of (zin c) t) with (batch_with (zin c) (tw t) (th t) rs). set (x := batch_with (zin c) (tw t) (th t) rs).
  assert (Hs1 : forallb csos rs = true) by (apply forallb_forall; intros r Hr; now apply Hb).
  assert (He1 : forallb ceos rs = false).
  { destruct rs as [|r rs']; [congruence|]. cbn [forallb]. destruct (Hb r (or_introl eq_refl)) as [_ ->]. reflexivity. }
  assert (Has : all_starting (bm x) = true).
  { unfold all_starting, x. cbn [bm batch_with sos of_rows]. rewrite map_map. cbn [rsos]. now rewrite all_true_map. }
  assert (Hpr : pre_hook c st x = Ok x) by (unfold pre_hook; now rewrite Has, andb_false_r).
  assert (Hpl : plen c rs = tw t + padn c).
  { unfold tight in Ht. rewrite Ht, longest_lmax. unfold plen. destruct (lmax_ex (fun r => length (cdat r)) rs Hne) as (r & Hr & E). fold rs. rewrite E.
    apply Nat.le_antisymm.
    - apply lmax_le. intros q Hq. rewrite padded_length. destruct (Hb q Hq) as [-> ->].
      pose proof (lmax_ge (fun r => length (cdat r)) rs q Hq). cbv beta in *. lia.
    - pose proof (plen_ge c rs r Hr) as G. rewrite padded_length in G. destruct (Hb r Hr) as [Q1 Q2]. rewrite Q1, Q2 in G. unfold plen in G. lia. }
  assert (Hcw : cwidth c (tw t) rs = tw t + padn c) by (unfold cwidth; rewrite He1, andb_false_r; lia).
  unfold residual_call, conv_call. rewrite Hpr. cbn [bind].
  assert (Hcv : conv1d c x = if tw t <=? padn c then Err RuntimeError
                             else Ok (batch_with (zout c) (tw t - padn c) (th t) (map (convolved c) rs), temps c rs)).
  { unfold x. rewrite conv1d_batch; auto.
    - rewrite Hcw, nwin_same by auto. pose proof Hss as [_ ->]. destruct (tw t <=? padn c) eqn:E.
      + replace (tw t + padn c <? 2 * padn c + 1) with true by lia. reflexivity.
      + replace (tw t + padn c <? 2 * padn c + 1) with false by lia.
        replace (tw t + padn c - 2 * padn c) with (tw t - padn c) by lia. reflexivity.
    - unfold tight in Ht. fold rs in Ht. lia.
    - intros _ _ _. lia. }
  unfold input_after. rewrite Hpr. cbn [bind]. rewrite Hcv. destruct (tw t <=? padn c) eqn:E; [reflexivity|]. cbn [bind].
  rewrite Has, andb_false_r. cbv zeta. cbn [bind]. unfold sum_call. cbn [bw batch_with]. unfold broadcast_width.
  replace (bw x) with (tw t) by reflexivity.
  replace (tw t =? tw t - padn c) with false by lia. replace (tw t =? 1) with false by lia.
  replace (tw t - padn c =? 1) with false by lia. reflexivity.
Qed.

(** The calls of a run, one by one. *)
Lemma residual_calls plus c : forall xs st ss st', residual_run plus c st xs = Ok (ss, st') ->
  exists ys, conv_run c st xs = Ok (ys, st') /\
    forall k x, nth_error xs k = Some x -> exists s y x1 stk, nth_error ss k = Some s /\ nth_error ys k = Some y /\
      input_after c stk x = Ok x1 /\ sum_call plus x1 y = Ok s.
Proof.
  induction xs as [|x xs IH]; intros st ss st' H; cbn [residual_run] in H.
  - inversion H; subst. exists []. split; auto. intros [|k] y Hy; discriminate.
  - apply bind_ok in H as ((s & st1) & H1 & H). apply bind_ok in H as ((ss2 & st2) & H2 & H). inversion H; subst.
    unfold residual_call in H1. apply bind_ok in H1 as ((y & st3) & Hy & H1). apply bind_ok in H1 as (x1 & Hx & H1).
    apply bind_ok in H1 as (s0 & Hs & H1). inversion H1; subst.
    destruct (IH _ _ _ H2) as (ys & Hr & Hk). exists (y :: ys). split.
    + cbn [conv_run]. rewrite Hy. cbn [bind]. rewrite Hr. reflexivity.
    + intros [|k] z Hz; cbn [nth_error] in *.
      * inversion Hz; subst. exists s, y, x1, st. auto.
      * now apply Hk.
Qed.

Lemma spec_run_nth c : forall sched past k rs, Forall good_batch sched -> nth_error sched k = Some rs ->
  exists pk, (forall i, pk i = pending c (past i) (stream_of i (firstn k sched))) /\
    nth_error (spec_run c past sched) k = Some (map (emit c pk) rs).
Proof.
  induction sched as [|b sched IH]; intros past k rs Hg Hk; [destruct k; discriminate|].
  inversion Hg as [|? ? (_ & Hnd & _) Hg']; subst. destruct k as [|k]; cbn [nth_error spec_run firstn] in *.
  - inversion Hk; subst. exists past. split; auto.
  - destruct (IH (advance c past b) k rs Hg' Hk) as (pk & H1 & H2). exists pk. split; auto.
    intros i. rewrite H1. symmetry. now apply pending_step.
Qed.

(** What is known of the sum for a batch in which not every row starts. *)
Lemma residual_batch plus c sched ss st' : valid_cfg c -> same_size c -> 0 < padn c ->
  good_schedule (map trows sched) -> Forall (fits c) sched -> unnumbered sched ->
  residual_run plus c no_buffers (map (tensor_of (zin c)) sched) = Ok (ss, st') ->
  forall k t, nth_error sched k = Some t -> (exists r, In r (trows t) /\ csos r = false) ->
  exists pk s w, (forall i, pk i = pending c None (stream_of i (map trows (firstn k sched)))) /\
    nth_error ss k = Some s /\
    sum_call plus (tensor_of (zin c) t) (tensor_of (zout c) (mkTens w false (map (emit c pk) (trows t)))) = Ok s /\
    longest (map (emit c pk) (trows t)) <= w /\
    forall r, In r (trows t) -> length (due c (so_far (pk (cid r))) r) = length (cdat r).
Proof.
  intros Hv Hss Hp Hg Hf Hu Hrun k t Ht (q & Hq & Hqs).
  destruct (residual_calls _ _ _ _ _ _ Hrun) as (ys & Hconv & Hk).
  pose proof Hss as [Hs1 Hs2]. assert (Hsk : strd c <= kspan c) by lia.
  pose proof Hg as [Hg1 _].
  destruct (run_refines c Hv Hsk sched _ _ ys st' Hg1 Hf (good_course c _ Hg) (matches_none c) Hconv) as (outs & -> & HR & Ho & Hm).
  assert (Htr : nth_error (map trows sched) k = Some (trows t)) by (now apply map_nth_error).
  destruct (spec_run_nth c _ (fun _ => None) k _ Hg1 Htr) as (pk & Hpk & Hout). rewrite <- Ho in Hout.
  apply nth_error_map' in Hout as (o & Hout & Eo).
  destruct (Hk k _ (map_nth_error (tensor_of (zin c)) _ _ Ht)) as (s & y & x1 & stk & Hs & Hy & Hx1 & Hsum).
  rewrite (map_nth_error (tensor_of (zout c)) _ _ Hout) in Hy. inversion Hy; subst y. clear Hy.
  assert (Hth : th t = false). { unfold unnumbered in Hu. rewrite Forall_forall in Hu. apply Hu. eapply nth_error_In; eauto. }
  assert (Hrel : relabelled t o).
  { clear - HR Ht Hout. revert k Ht Hout. induction HR as [|a b l1 l2 H1 H2 IH]; intros [|k] Ht Hout; cbn in *; try discriminate.
    - inversion Ht; inversion Hout; subst; auto.
    - eauto. }
  destruct Hrel as (R1 & R2 & _).
  assert (Hho : th o = false) by (destruct (th o); auto; specialize (R1 eq_refl); congruence).
  assert (Hnot : all_starting (bm (tensor_of (zin c) t)) = false).
  { unfold all_starting. cbn [tensor_of bm batch_with sos of_rows]. rewrite map_map. cbn [rsos]. rewrite all_true_map.
    destruct (forallb csos (trows t)) eqn:E; auto. rewrite forallb_forall in E. rewrite (E q Hq) in Hqs. discriminate. }
  apply input_kept in Hx1; auto; [|lia]. subst x1.
  exists pk, s, (tw o). split; [intros i; rewrite Hpk, firstn_map; reflexivity|]. split; auto.
  assert (Eout : tensor_of (zout c) o = tensor_of (zout c) (mkTens (tw o) false (map (emit c pk) (trows t)))).
  { unfold tensor_of. rewrite Hho. cbn [tw th trows]. now rewrite Eo. }
  rewrite <- Eout. split; auto. split; [rewrite Eo; auto|]. 
  intros r Hr. unfold sum_call in Hsum. apply bind_ok in Hsum as (w & _ & Hsum). apply bind_ok in Hsum as (e & He & _).
  cbn [Dispatch.all_eq] in He. apply bind_ok in He as (e' & He & _).
  apply meta_eq_lens in He as [_ He].
  2:{ unfold tensor_of. rewrite Hho. reflexivity. }
  unfold tensor_of in He. cbn [bm batch_with lens of_rows] in He. rewrite <- Eo, !map_map in He. cbn [rlen] in He.
  clear - He Hr. revert He. induction (trows t) as [|a l IH]; [destruct Hr|]. intros He. cbn [map] in He. inversion He as [[E1 E2]].
  destruct Hr as [->|Hr]; [cbn [emit set_data cdat] in E1; lia|auto].
Qed.

Lemma stream_split i : forall (sched : list (list (chunk V))) a r b, Forall (fun rs => NoDup (map cid rs)) sched ->
  stream_of i sched = a ++ r :: b ->
  exists k rs, nth_error sched k = Some rs /\ In r rs /\ stream_of i (firstn k sched) = a.
Proof.
  induction sched as [|rs sched IH]; intros a r b Hg E; [destruct a; discriminate|].
  inversion Hg as [|? ? Hnd Hg']; subst. rewrite stream_of_cons, filter_cid in E by auto.
  destruct (find (fun q => String.eqb (cid q) i) rs) as [q|] eqn:Ef; cbn [app] in E.
  - destruct a as [|q' a]; cbn [app] in E; inversion E; subst.
    + exists 0, rs. split; auto. split; auto. now apply find_some in Ef.
    + destruct (IH a r b Hg' H1) as (k & rs' & Hk & Hr & Hs). exists (S k), rs'. split; auto. split; auto.
      cbn [firstn]. rewrite stream_of_cons, filter_cid, Ef by auto. cbn [app]. now rewrite Hs.
  - destruct (IH a r b Hg' E) as (k & rs' & Hk & Hr & Hs). exists (S k), rs'. split; auto. split; auto.
    cbn [firstn]. rewrite stream_of_cons, filter_cid, Ef by auto. exact Hs.
Qed.

Lemma pending_running c l past : valid_cfg c -> strd c <= kspan c -> running l ->
  pending c past l = Some (zeros c ++ data_of l).
Proof.
  intros Hv Hs Hr. destruct (running_shape l Hr) as (r & m & -> & H1 & H2 & Hm). cbn [pending]. rewrite H2.
  assert (E : received c (so_far past) r = zeros c ++ cdat r) by (unfold received; rewrite H1, H2, app_nil_r; reflexivity).
  rewrite E. destruct (inner_ideal c Hv Hs m (zeros c ++ cdat r) Hm) as [_ ->]. rewrite data_of_cons. now rewrite app_assoc.
Qed.

Lemma stream_in_id i (sched : list (list (chunk V))) r : In r (stream_of i sched) -> cid r = i /\ exists rs, In rs sched /\ In r rs.
Proof.
  unfold stream_of. intros H. apply filter_In in H as [H E]. apply String.eqb_eq in E. split; auto.
  apply in_concat in H as (rs & H1 & H2). eauto.
Qed.

Lemma good_nodup (sched : list (list (chunk V))) : Forall good_batch sched -> Forall (fun rs => NoDup (map cid rs)) sched.
Proof. apply Forall_impl. intros rs (_ & H & _). exact H. Qed.

(** A stream that was cut into chunks never gets to its end. *)
Theorem residual_cut plus c sched ss st' : valid_cfg c -> same_size c -> 0 < padn c ->
  good_schedule (map trows sched) -> Forall (fits c) sched -> unnumbered sched ->
  residual_run plus c no_buffers (map (tensor_of (zin c)) sched) = Ok (ss, st') ->
  forall i l1 l l2, stream_of i (map trows sched) = l1 ++ l ++ l2 -> complete l -> length l = 1.
Proof.
  intros Hv Hss Hp Hg Hf Hu Hrun i l1 l l2 E Hc. pose proof Hss as [Hs1 Hs2]. assert (Hsk : strd c <= kspan c) by lia.
  destruct (complete_shape l Hc) as [(r & -> & _)|(r & m & e & -> & H1 & H2 & Hm & H3 & H4)]; [reflexivity|]. exfalso.
  pose proof Hg as [Hg1 _].
  assert (E' : stream_of i (map trows sched) = (l1 ++ r :: m) ++ e :: l2).
  { rewrite E, <- !app_assoc. cbn [app]. now rewrite <- app_assoc. }
  destruct (stream_split i _ _ _ _ (good_nodup _ Hg1) E') as (k & rs & Hk & He & Hpre).
  apply nth_error_map' in Hk as (t & Hk & ->).
  destruct (residual_batch plus c sched ss st' Hv Hss Hp Hg Hf Hu Hrun k t Hk) as (pk & s & w & Hpk & _ & _ & _ & Hlen); [eauto|].
  specialize (Hlen e He).
  assert (Hci : cid e = i).
  { apply (stream_in_id i (map trows sched)). rewrite E'. apply in_or_app. right. now left. }
  rewrite firstn_map in Hpre. rewrite Hpk, Hci, Hpre, pending_app in Hlen.
  rewrite pending_running in Hlen; auto.
  2:{ split; [discriminate|]. intros j q Hj. destruct j as [|j]; cbn [nth_error] in Hj.
      - inversion Hj; subst. auto.
      - apply nth_error_In in Hj. destruct (Hm q Hj). auto. }
  cbn [so_far] in Hlen. unfold due, received in Hlen. rewrite H3, H4 in Hlen.
  rewrite skipn_length, conv_seq_length, !nwin_same, !app_length in Hlen by auto. unfold zeros in Hlen. rewrite !repeat_length in Hlen.
  assert (Hr : cdat r <> []).
  { assert (Hin : In r (stream_of i (map trows sched))).
    { rewrite E'. apply in_or_app. left. apply in_or_app. right. now left. }
    apply stream_in_id in Hin as [_ (b & Hb & Hin)]. rewrite Forall_forall in Hg1. destruct (Hg1 b Hb) as (_ & _ & G).
    rewrite Forall_forall in G. apply G; auto. }
  assert (Hd : 0 < length (data_of (r :: m))).
  { rewrite data_of_cons, app_length. destruct (cdat r); [congruence|]. simpl. lia. }
  lia.
Qed.

Lemma firstn_stretch n w (row : list V) : n <= length row -> n <= w -> firstn n (stretch w row) = firstn n row.
Proof.
  intros H1 H2. destruct row as [|v [|]]; cbn [stretch]; auto. cbn [length] in H1. destruct n as [|[|n]]; try lia; auto.
  destruct w; [lia|]. reflexivity.
Qed.

(** What the sum computes for a chunk that goes on: the convolution lags behind by the padding. *)
Theorem residual_lag plus c sched ss st' : valid_cfg c -> same_size c -> 0 < padn c ->
  good_schedule (map trows sched) -> Forall (fits c) sched -> unnumbered sched ->
  residual_run plus c no_buffers (map (tensor_of (zin c)) sched) = Ok (ss, st') ->
  forall k t s j r l1 l, nth_error sched k = Some t -> nth_error ss k = Some s -> nth_error (trows t) j = Some r ->
    csos r = false -> ceos r = false ->
    stream_of (cid r) (map trows (firstn k sched)) = l1 ++ l -> running l ->
    exists row, nth_error (bd s) j = Some row /\
      firstn (length (cdat r)) row
      = skip_sum plus (cdat r) (skipn (length (data_of l) - padn c) (conv_seq c (zeros c ++ data_of l ++ cdat r))).
Proof.
  intros Hv Hss Hp Hg Hf Hu Hrun k t s j r l1 l Hk Hs Hj H1 H2 E Hl. pose proof Hss as [Hs1 Hs2]. assert (Hsk : strd c <= kspan c) by lia.
  pose proof (nth_error_In _ _ Hj) as Hr.
  destruct (residual_batch plus c sched ss st' Hv Hss Hp Hg Hf Hu Hrun k t Hk) as (pk & s' & w & Hpk & Hs' & Hsum & Hlw & Hlen); [eauto|].
  rewrite Hs in Hs'. inversion Hs'; subst s'. clear Hs'. specialize (Hlen r Hr).
  assert (Ed : due c (so_far (pk (cid r))) r
             = skipn (length (data_of l) - padn c) (conv_seq c (zeros c ++ data_of l ++ cdat r))).
  { rewrite Hpk, E, pending_app, pending_running by auto. cbn [so_far]. unfold due, received. rewrite H1, H2, app_nil_r.
    rewrite nwin_same, app_length by auto. unfold zeros at 1. rewrite repeat_length, <- app_assoc. f_equal. lia. }
  assert (Hwt : length (cdat r) <= tw t).
  { pose proof (longest_ge (trows t) r Hr). rewrite Forall_forall in Hf. destruct (Hf t (nth_error_In _ _ Hk)) as [G _]. lia. }
  assert (Hwo : length (cdat r) <= w).
  { rewrite <- Hlen. change (due c (so_far (pk (cid r))) r) with (cdat (emit c pk r)).
    pose proof (longest_ge (map (emit c pk) (trows t)) (emit c pk r) (in_map _ _ _ Hr)). lia. }
  unfold sum_call in Hsum. apply bind_ok in Hsum as (W & HW & Hsum). apply bind_ok in Hsum as (e & _ & Hsum).
  destruct e; cbn [negb] in Hsum; [|discriminate]. inversion Hsum; subst s. clear Hsum. cbn [bd tensor_of batch_with bw tw th trows] in *.
  assert (HWn : length (cdat r) <= W).
  { unfold broadcast_width in HW. destruct (tw t =? w); [inversion HW; lia|]. destruct (tw t =? 1); [inversion HW; lia|].
    destruct (w =? 1); inversion HW; lia. }
  rewrite map_map, zip_map_l, map_map. cbn [fst snd]. rewrite (map_nth_error _ _ _ Hj). eexists. split; [reflexivity|].
  rewrite firstn_map, zip_combine, combine_firstn.
  cbn [emit set_data cdat].
  rewrite !firstn_stretch by (rewrite ?app_length, ?repeat_length; lia).
  rewrite firstn_app, firstn_all, Nat.sub_diag. cbn [firstn]. rewrite app_nil_r.
  rewrite <- Hlen at 1. rewrite firstn_app, firstn_all, Nat.sub_diag. cbn [firstn]. rewrite app_nil_r.
  now rewrite Ed.
Qed.

End ResidualProofs.

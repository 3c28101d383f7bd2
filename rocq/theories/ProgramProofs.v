(** Proofs about the example program: sizes, random chunks, random batches. *)

From Coq Require Import String List ZArith Bool Lia.
From Coq Require Import ZifyBool.
From Verif Require Import Py Meta MetaSpec Pad Conv ConvSpec ConvProofs ConvRunProofs ConvStreamProofs ConvMoreProofs
  Stack StackSpec StackProofs Pipeline PipelineSpec Collector CollectorSpec CollectorProofs PipelineProofs Program ProgramSpec.
Import ListNotations.
Open Scope nat_scope.

(* ---------- sizes ---------- *)

Lemma positions_ge k s n m : k <= n -> m / s <= positions k s (n + m) - positions k s n.
Proof.
  intros H. unfold positions. replace (n <? k) with false by lia. replace (n + m <? k) with false by lia.
  destruct (Nat.eq_dec s 0) as [->|Hs]; [cbn; lia|].
  replace (n + m - k) with ((n - k) + m) by lia.
  pose proof (Nat.div_mod_eq (n - k) s). pose proof (Nat.div_mod_eq m s).
  assert ((n - k) / s + m / s <= ((n - k) + m) / s).
  { apply Nat.div_le_lower_bound; auto. pose proof (Nat.mod_upper_bound (n - k) s Hs). pose proof (Nat.mod_upper_bound m s Hs). nia. }
  lia.
Qed.

Lemma later_at_least k s p m e l : forall ms past, k <= past -> Forall (fun n => m <= n) ms -> e <= l ->
  exists ms' l', later_sizes k s p past (ms ++ [l]) = ms' ++ [l'] /\ Forall (fun n => m / s <= n) ms' /\ (e + p) / s <= l'.
Proof.
  induction ms as [|n ms IH]; intros past Hp Hm He.
  - exists [], (positions k s (past + l + p) - positions k s past). split; [reflexivity|]. split; [constructor|].
    rewrite <- Nat.add_assoc. eapply Nat.le_trans; [|apply positions_ge; auto].
    destruct (Nat.eq_dec s 0) as [->|Hs]; [cbn; lia|]. apply Nat.div_le_mono; auto. lia.
  - inversion Hm; subst. destruct (IH (past + n + 0)) as (ms' & l' & E & F & G); auto; [lia|].
    exists (positions k s (past + n + 0) - positions k s past :: ms'), l'. split; [|split; auto].
    + cbn [app later_sizes]. replace (match ms ++ [l] with [] => p | _ => 0 end) with 0 by (destruct ms; reflexivity).
      cbv zeta. now rewrite E.
    + constructor; auto. rewrite Nat.add_0_r. eapply Nat.le_trans; [|apply positions_ge; auto].
      destruct (Nat.eq_dec s 0) as [->|Hs]; [cbn; lia|]. apply Nat.div_le_mono; auto.
Qed.

Lemma out_at_least k s p a m e ns : k <= a + p -> at_least a m e ns ->
  at_least ((a + p - k) / s + 1) (m / s) ((e + p) / s) (out_sizes (k, s, p) ns).
Proof.
  intros Hk (f & ms & l & -> & Ha & Hm & He). cbn [out_sizes].
  replace (match ms ++ [l] with [] => p | _ => 0 end) with 0 by (destruct ms; reflexivity). cbv zeta.
  destruct (later_at_least k s p m e l ms (p + f + 0)) as (ms' & l' & E & F & G); auto; [lia|].
  exists (positions k s (p + f + 0)), ms', l'. rewrite E. split; auto. split; auto.
  unfold positions. replace (p + f + 0 <? k) with false by lia.
  destruct (Nat.eq_dec s 0) as [->|Hs]; [cbn; lia|]. apply Nat.add_le_mono_r. apply Nat.div_le_mono; auto. lia.
Qed.

Theorem wide_lasting : forall shs a m e ns, wide shs a m e -> at_least a m e ns -> lasting shs ns.
Proof.
  induction shs as [|[[k s] p] shs IH]; intros a m e ns (Ha & Hm & He & H) Hn; cbn [lasting].
  - split; auto. destruct Hn as (f & ms & l & -> & A & B & C). constructor; [lia|]. apply Forall_app. split.
    + eapply Forall_impl; [|exact B]. cbn. intros; lia.
    + constructor; [lia|constructor].
  - destruct H as [Hk H]. split.
    + destruct Hn as (f & ms & l & -> & A & B & C). constructor; [lia|]. apply Forall_app. split.
      * eapply Forall_impl; [|exact B]. cbn. intros; lia.
      * constructor; [lia|constructor].
    + eapply IH; [exact H|]. now apply out_at_least.
Qed.

Section Sizes.
Context {V : Type}.
Implicit Types (l : list (chunk V)) (Ls : list (layer V)).

Definition sizes l : list nat := map (fun r => length (cdat r)) l.

Lemma nwin_positions (c : conv_cfg V) n : nwin c n = positions (kspan c) (strd c) n.
Proof. reflexivity. Qed.

Lemma due_length (c : conv_cfg V) past (r : chunk V) : length (due c past r) =
  positions (kspan c) (strd c) ((if csos r then padn c else length past) + length (cdat r) + (if ceos r then padn c else 0))
  - (if csos r then 0 else positions (kspan c) (strd c) (length past)).
Proof.
  unfold due. rewrite skipn_length, conv_seq_length, !nwin_positions. f_equal. f_equal. unfold received, zeros.
  rewrite !app_length. destruct (csos r), (ceos r); cbn [length]; rewrite ?repeat_length; lia.
Qed.

Lemma received_length (c : conv_cfg V) past (r : chunk V) : length (received c past r) =
  (if csos r then padn c else length past) + length (cdat r) + (if ceos r then padn c else 0).
Proof. unfold received, zeros. rewrite !app_length. destruct (csos r), (ceos r); cbn [length]; rewrite ?repeat_length; lia. Qed.

Lemma later_exact (c : conv_cfg V) : forall l past,
  (forall k r, nth_error l k = Some r -> csos r = false /\ ceos r = (S k =? length l)) ->
  sizes (ideal c past l) = later_sizes (kspan c) (strd c) (padn c) (length past) (sizes l).
Proof.
  induction l as [|r l IH]; intros past H; [reflexivity|]. destruct (H 0 r eq_refl) as [Hs He].
  cbn [ideal sizes map]. cbn [later_sizes]. cbn [set_data cdat]. rewrite due_length, Hs.
  assert (E : (if ceos r then padn c else 0) = match map (fun r => length (cdat r)) l with [] => padn c | _ => 0 end).
  { rewrite He. destruct l; reflexivity. }
  rewrite E. cbv zeta. f_equal. destruct l as [|q l]; [destruct (ceos r); reflexivity|].
  cbn [length Nat.eqb] in He. rewrite He. unfold sizes in IH. rewrite IH.
  - f_equal. rewrite received_length, Hs, He. cbn [map]. lia.
  - intros k x Hk. specialize (H (S k) x Hk). cbn [length] in *. destruct H. split; auto.
Qed.

Lemma layer_exact (c : conv_cfg V) l : complete l -> sizes (ideal c [] l) = out_sizes (kspan c, strd c, padn c) (sizes l).
Proof.
  intros [Hne H]. destruct l as [|r l]; [congruence|]. destruct (H 0 r eq_refl) as [Hs He].
  cbn [ideal sizes map out_sizes]. cbn [set_data cdat]. rewrite due_length, Hs. cbn [Nat.eqb]. rewrite Nat.sub_0_r.
  assert (E : (if ceos r then padn c else 0) = match map (fun r => length (cdat r)) l with [] => padn c | _ => 0 end).
  { rewrite He. destruct l; reflexivity. }
  rewrite E. cbv zeta. f_equal. destruct l as [|q l]; [destruct (ceos r); reflexivity|].
  cbn [length Nat.eqb] in He. rewrite He. fold (sizes (ideal c (received c [] r) (q :: l))). rewrite later_exact.
  - unfold sizes. f_equal. rewrite received_length, Hs, He. cbn [map Nat.eqb]. lia.
  - intros k x Hk. specialize (H (S k) x Hk). cbn [length] in *. destruct H. split; auto.
Qed.

Lemma layer_complete (L : layer V) l : complete l -> complete (layer_chunks L l).
Proof. intros H. eapply follows_complete; [apply layer_follows|auto]. Qed.

Lemma sizes_nonempty l : Forall (fun r => cdat r <> []) l <-> Forall (fun n => 1 <= n) (sizes l).
Proof.
  unfold sizes. rewrite Forall_map. split; apply Forall_impl; intros r.
  - destruct (cdat r); [congruence|cbn; lia].
  - intros H E. rewrite E in H. cbn in H. lia.
Qed.

Lemma lasting_nonempty shs ns : lasting shs ns -> Forall (fun n => 1 <= n) ns.
Proof. destruct shs; cbn [lasting]; tauto. Qed.

Lemma all_survive_nonempty Ls l : all_survive Ls l -> Forall (fun r => cdat r <> []) l.
Proof. destruct Ls; cbn [all_survive]; tauto. Qed.

(** Whether chunks survive depends on their sizes only. *)
Theorem survive_lasting : forall Ls l, complete l -> (all_survive Ls l <-> lasting (shapes_of Ls) (sizes l)).
Proof.
  induction Ls as [|[c|g] Ls IH]; intros l Hc; cbn [all_survive shapes_of].
  - cbn [lasting]. rewrite sizes_nonempty. tauto.
  - cbn [lasting]. rewrite sizes_nonempty, (IH (layer_chunks (LConv c) l)) by now apply layer_complete.
    cbn [layer_chunks]. now rewrite layer_exact.
  - rewrite (IH (layer_chunks (LMap g) l)) by now apply layer_complete.
    assert (E : sizes (layer_chunks (LMap g) l) = sizes l).
    { cbn [layer_chunks]. unfold sizes. rewrite map_map. apply map_ext. intros r. cbn. now rewrite map_length. }
    rewrite E, sizes_nonempty. split; [tauto|]. intros H. split; auto. eapply lasting_nonempty; eauto.
Qed.

Lemma all_survive_through : forall Ls l, all_survive Ls l -> survives_through Ls l.
Proof.
  assert (G : forall l, Forall (fun r => cdat r <> []) l -> flagged_nonempty l).
  { intros l H. unfold flagged_nonempty. eapply Forall_impl; [|exact H]. cbn. auto. }
  induction Ls as [|L Ls IH]; intros l [H1 H2]; cbn [survives_through]; auto.
Qed.

(* ---------- the plain model ---------- *)

Theorem target_offline : forall Ls l, Forall good_layer Ls -> complete l -> all_survive Ls l ->
  target Ls (data_of l) = Ok (stack_offline Ls (data_of l)).
Proof.
  intros Ls l HL Hc Hs. unfold target.
  assert (G : plain_forward Ls (length (data_of l)) [data_of l]
            = Ok (length (stack_offline Ls (data_of l)), [stack_offline Ls (data_of l)])).
  { revert l HL Hc Hs. induction Ls as [|L Ls IH]; intros l HL Hc Hs; [reflexivity|].
    inversion HL as [|? ? HL1 HL2]; subst. destruct Hs as [Hs1 Hs2].
    destruct (layer_segment L [] l [] HL1 Hc) as (o1 & o & o2 & E & E1 & E2 & Hco & Ed).
    cbn [app] in E. rewrite app_nil_r in E. destruct o1; [|discriminate]. cbn [app] in E.
    assert (o2 = []).
    { apply (f_equal (@length (chunk V))) in E. rewrite app_length in E.
      rewrite <- (Forall2_len _ _ _ (layer_follows L l)) in E. destruct o2; auto. cbn [length] in E. lia. }
    subst o2. rewrite app_nil_r in E. rewrite E in Hs2. specialize (IH o HL2 Hco Hs2). rewrite Ed in IH.
    unfold stack_offline in *. cbn [fold_left]. destruct L as [c|g]; cbn [plain_forward layer_offline] in *.
    - destruct HL1 as [Hv Hst]. rewrite torch_offline by (auto; constructor; auto).
      assert (Hn : data_of o <> []).
      { apply all_survive_nonempty in Hs2. destruct Hco as [Hne _]. destruct o as [|r o]; [congruence|]. inversion Hs2; subst.
        unfold data_of. cbn [map List.concat]. destruct (cdat r); [congruence|discriminate]. }
      rewrite Ed in Hn. unfold offline in Hn.
      assert (Hlen : length (zeros c ++ data_of l ++ zeros c) = length (data_of l) + 2 * padn c).
      { unfold zeros. rewrite !app_length, !repeat_length. lia. }
      assert (Hge : ~ length (data_of l) + 2 * padn c < kspan c).
      { rewrite <- Hlen. intros Hlt. apply Hn. now apply conv_seq_nil_iff. }
      replace (length (data_of l) + 2 * padn c <? kspan c) with false by lia. cbn [bind map].
      replace (nwin c (length (data_of l) + 2 * padn c)) with (length (offline c (data_of l))).
      + exact IH.
      + unfold offline. now rewrite conv_seq_length, Hlen.
    - cbn [map]. rewrite map_length in IH. exact IH. }
  rewrite G. reflexivity.
Qed.

(* ---------- success of the calls ---------- *)

Lemma stack_run_build (L : layer V) Ls : forall xs st sts mid st1 ys sts1, layer_run L st xs = Ok (mid, st1) ->
  stack_run Ls sts mid = Ok (ys, sts1) -> stack_run (L :: Ls) (st :: sts) xs = Ok (ys, st1 :: sts1).
Proof.
  induction xs as [|x xs IH]; intros st sts mid st1 ys sts1 H1 H2.
  - cbn in H1. inversion H1; subst. cbn in *. inversion H2; subst. reflexivity.
  - cbn [layer_run] in H1. apply bind_ok in H1 as ((y & s) & Hy & H1). apply bind_ok in H1 as ((ys' & s') & Hys & E). inversion E; subst.
    cbn [stack_run] in H2. apply bind_ok in H2 as ((z & ss) & Hz & H2). apply bind_ok in H2 as ((zs & ss') & Hzs & E2). inversion E2; subst.
    cbn [stack_run stack_call]. rewrite Hy. cbn [bind]. rewrite Hz. cbn [bind]. rewrite (IH _ _ _ _ _ _ Hys Hzs). reflexivity.
Qed.

(** Where a row of a batch is in its stream. *)
Lemma row_in_stream (sched : list (list (chunk V))) k rs r : Forall good_batch sched -> nth_error sched k = Some rs -> In r rs ->
  exists l2, stream_of (cid r) sched = stream_of (cid r) (firstn k sched) ++ r :: l2.
Proof.
  intros Hg Hk Hr.
  assert (Hgt : good_batch rs) by (rewrite Forall_forall in Hg; apply Hg; eapply nth_error_In; eauto).
  destruct Hgt as (_ & Hnd & _).
  assert (Esplit : sched = firstn k sched ++ rs :: skipn (S k) sched).
  { clear - Hk. revert k Hk. induction sched as [|x s IH]; intros [|k] H; simpl in *; try discriminate.
    - now inversion H.
    - now rewrite <- IH. }
  exists (stream_of (cid r) (skipn (S k) sched)). rewrite Esplit at 1. rewrite stream_of_app, stream_of_cons, filter_cid, find_cid by auto. reflexivity.
Qed.

Lemma layer_succeeds (L : layer V) z z' Ls sched : smooth_layer L -> zero_preserving z (L :: Ls) z' ->
  good_schedule (map trows sched) -> Forall tight sched ->
  (forall i, Forall (fun r => cdat r <> []) (layer_chunks L (stream_of i (map trows sched)))) ->
  exists mid st1, layer_run L no_buffers (map (tensor_of z) sched) = Ok (mid, st1).
Proof.
  intros HL Hz Hg Ht Hne. destruct L as [c|g]; [|rewrite layer_run_map; eauto].
  destruct HL as [Hv Hs]. destruct Hz as [<- _]. rewrite layer_run_conv. pose proof Hg as [Hg1 _].
  assert (Hle : strd c <= kspan c) by lia.
  apply (run_total c Hv Hle sched no_buffers (fun _ => None)); auto.
  - clear - Hg1 Ht. induction sched as [|t s IH]; constructor; inversion Ht; subst; cbn [map] in Hg1; inversion Hg1 as [|? ? (Hne & _) Hg2]; subst; auto.
    now apply tight_fits.
  - now apply good_course.
  - apply matches_none.
  - intros k t Hk. cbv zeta. split.
    + destruct Hs as [Hs|[Hs _]]; [now apply no_jam|]. intros (Hj & _). lia.
    + assert (Hk' : nth_error (map trows sched) k = Some (trows t)) by (rewrite nth_error_map, Hk; reflexivity).
      assert (Hgt : good_batch (trows t)) by (rewrite Forall_forall in Hg1; apply Hg1; eapply nth_error_In; eauto).
      destruct Hgt as (Hrne & _). destruct (trows t) as [|r rs] eqn:Er; [congruence|].
      intros Hst. specialize (Hst r (or_introl eq_refl)).
      destruct (row_in_stream (map trows sched) k (r :: rs) r Hg1) as (l2 & E); auto; [left; auto|].
      specialize (Hne (cid r)). cbn [layer_chunks] in Hne. rewrite E in Hne.
      change (@nil V) with (@so_far V None) in Hne. rewrite (ideal_app c _ _ None) in Hne. apply Forall_app in Hne as [_ Hne].
      cbn [ideal] in Hne. inversion Hne as [|? ? Hd _]; subst. cbn [set_data cdat] in Hd. apply Hd.
      rewrite firstn_map'. exact Hst.
Qed.

Lemma smooth_good (L : layer V) : smooth_layer L -> good_layer L.
Proof. destruct L as [c|g]; cbn; auto. intros [H H1]. split; auto. lia. Qed.

Theorem stack_succeeds z' : forall Ls z sched, Forall smooth_layer Ls -> zero_preserving z Ls z' ->
  good_schedule (map trows sched) -> Forall tight sched ->
  (forall i, all_survive Ls (stream_of i (map trows sched))) ->
  exists ys sts, stack_run Ls (fresh Ls) (map (tensor_of z) sched) = Ok (ys, sts).
Proof.
  induction Ls as [|L Ls IH]; intros z sched HL Hz Hg Ht Hs.
  - exists (map (tensor_of z) sched), []. generalize (map (tensor_of z) sched). intros xs. cbn [fresh map].
    induction xs as [|x xs IHx]; [reflexivity|]. cbn [stack_run stack_call bind]. now rewrite IHx.
  - inversion HL as [|? ? HL1 HL2]; subst.
    destruct (layer_succeeds L z z' Ls sched HL1 Hz Hg Ht) as (mid & st1 & Hm).
    { intros i. destruct (Hs i) as [_ H]. eapply all_survive_nonempty; eauto. }
    destruct (layer_step L z z' Ls sched _ _ _ (smooth_good _ HL1) Hz eq_refl Hg Ht Hm) as (z1 & outs & Hz1 & -> & Ht1 & HF & _ & Ho).
    assert (Hg1 : good_schedule (map trows outs)).
    { eapply good_follows; eauto. intros i. rewrite Ho. destruct (Hs i) as [_ H]. apply all_survive_nonempty in H.
      unfold flagged_nonempty. eapply Forall_impl; [|exact H]. cbn. auto. }
    destruct (IH z1 outs HL2 Hz1 Hg1 Ht1) as (ys & sts & Hr).
    { intros i. rewrite Ho. now destruct (Hs i). }
    exists ys, (st1 :: sts). cbn [fresh map]. eapply stack_run_build; eauto.
Qed.

(** One chunk at a time: if all calls succeed, every chunk gave output at every layer. *)
Theorem stack_single z' : forall Ls z sched ys sts, Forall good_layer Ls -> zero_preserving z Ls z' ->
  good_schedule (map trows sched) -> Forall tight sched -> Forall (fun t => exists r, trows t = [r]) sched ->
  (forall i, Forall (fun r => cdat r <> []) (stream_of i (map trows sched))) ->
  stack_run Ls (fresh Ls) (map (tensor_of z) sched) = Ok (ys, sts) ->
  forall i, all_survive Ls (stream_of i (map trows sched)).
Proof.
  induction Ls as [|L Ls IH]; intros z sched ys sts HL Hz Hg Ht H1 Hne Hrun i; cbn [all_survive]; [auto|]. split; auto.
  inversion HL as [|? ? HL1 HL2]; subst. cbn [fresh map] in Hrun. apply stack_run_cons in Hrun as (mid & st1 & sts1 & Hm & Hr & ->).
  destruct (layer_step L z z' Ls sched _ _ _ HL1 Hz eq_refl Hg Ht Hm) as (z1 & outs & Hz1 & -> & Ht1 & HF & _ & Ho).
  assert (Hne1 : forall i, Forall (fun r => cdat r <> []) (layer_chunks L (stream_of i (map trows sched)))).
  { intros j. destruct L as [c|g].
    - destruct HL1 as [Hv Hst]. destruct Hz as [<- _]. rewrite layer_run_conv in Hm. cbn [layer_chunks].
      pose proof (run_succeeds_only c sched _ _ Hv Hst Hg Ht Hm) as Hsp. pose proof Hg as [Hg1 _].
      (* every chunk of the stream is the only row of some batch *)
      assert (Hall : forall l1 r l2, stream_of j (map trows sched) = l1 ++ r :: l2 -> due c (so_far (pending c None l1)) r <> []).
      { clear - Hsp Hv H1. intros l1 r l2 E.
        assert (G : exists k t, nth_error sched k = Some t /\ trows t = [r] /\ cid r = j /\ stream_of j (map trows (firstn k sched)) = l1).
        { clear Hsp. revert l1 E. induction H1 as [|t s (q & Hq) Hs IHs]; intros l1 E; [destruct l1; discriminate|].
          cbn [map] in E. rewrite stream_of_cons, Hq in E. cbn [filter] in E. destruct (String.eqb (cid q) j) eqn:Eq.
          - destruct l1 as [|q' l1].
            + cbn [app] in E. inversion E; subst. exists 0, t. cbn [nth_error firstn map]. repeat split; auto. now apply String.eqb_eq.
            + cbn [app] in E. inversion E; subst. destruct (IHs l1) as (k & u & A & B & C & D); auto.
              exists (S k), u. cbn [nth_error firstn map]. repeat split; auto. rewrite stream_of_cons, Hq. cbn [filter]. rewrite Eq, D. reflexivity.
          - cbn [app] in E. destruct (IHs l1 E) as (k & u & A & B & C & D).
            exists (S k), u. cbn [nth_error firstn map]. repeat split; auto. rewrite stream_of_cons, Hq. cbn [filter]. rewrite Eq, D. reflexivity. }
        destruct G as (k & t & A & B & C & D). destruct (Hsp k t A) as (q & Hq & Hspan). rewrite B in Hq. destruct Hq as [<-|[]].
        apply due_nonempty; auto. rewrite C, D in Hspan. exact Hspan. }
      clear - Hall. set (l := stream_of j (map trows sched)) in *. clearbody l.
      enough (G : forall l2 l1, l = l1 ++ l2 -> Forall (fun r => cdat r <> []) (ideal c (so_far (pending c None l1)) l2)) by (apply (G l []); reflexivity).
      induction l2 as [|r l2 IHl]; intros l1 E; cbn [ideal]; constructor.
      + cbn [set_data cdat]. eapply Hall; eauto.
      + specialize (IHl (l1 ++ [r])). rewrite <- app_assoc in IHl. specialize (IHl E). rewrite pending_app in IHl. cbn [pending] in IHl.
        destruct (ceos r); exact IHl.
    - cbn [layer_chunks]. rewrite Forall_map. eapply Forall_impl; [|apply Hne]. cbn. intros r Hx E. apply Hx. destruct (cdat r); [auto|discriminate]. }
  rewrite <- Ho. eapply (IH z1 outs); eauto.
  - eapply good_follows; eauto. intros j. rewrite Ho. unfold flagged_nonempty. eapply Forall_impl; [|apply Hne1]. cbn. auto.
  - clear - HF H1. assert (G : forall s o, Forall2 (Forall2 follows) s (map trows o) -> Forall (fun rs : list (chunk V) => exists r, rs = [r]) s -> Forall (fun t => exists r, trows t = [r]) o).
    { intros s o H. remember (map trows o) as m eqn:Em. revert o Em. induction H as [|a b s m Hab H IH]; intros o Em Hs; destruct o as [|t o]; try discriminate; constructor.
      - inversion Em; subst. inversion Hs as [|? ? (r & ->) _]; subst. inversion Hab as [|? ? ? ? ? Hn]; subst. inversion Hn; subst. eauto.
      - inversion Em; subst. inversion Hs; subst. auto. }
    eapply G; [exact HF|]. rewrite Forall_map. exact H1.
  - intros j. rewrite Ho. apply Hne1.
Qed.

End Sizes.

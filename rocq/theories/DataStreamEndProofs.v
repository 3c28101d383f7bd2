(** Proofs: files read in phase, and files of one chunk. *)

From Coq Require Import String List ZArith Bool Lia Permutation.
From Coq Require Import ZifyBool.
From Verif Require Import Py Meta MetaSpec Pad Conv ConvSpec ConvProofs ConvRunProofs ConvStreamProofs ConvMoreProofs
  Stack StackSpec StackProofs StackLiveProofs Collector CollectorSpec PipelineSpec PipelineProofs Program
  KeepSpec KeepProofs KeepNetProofs KeepGroupProofs Data DataSpec DataProofs DataDropProofs PartitionProofs LoaderProofs DataStream DataStreamSpec DataStreamProofs.
Import ListNotations.
Open Scope nat_scope.

Section DataStreamEnd.
Context {V : Type}.
Implicit Types (Ls : list (layer V)) (b : list (sample V)) (s : sample V) (l : list (chunk V)).

(* ---------- long chunks ---------- *)

Lemma long_flagged n l : 1 <= n -> all_long n l -> flagged_nonempty l.
Proof.
  intros Hn Hl. unfold flagged_nonempty, all_long in *. eapply Forall_impl; [|exact Hl]. cbv beta. intros r Hr _ E. rewrite E in Hr. cbn in Hr. lia.
Qed.

Lemma long_layer (L : layer V) n l w Ls : good_layer L -> unpadded_width (L :: Ls) n = Some w -> 1 <= n -> all_long n l ->
  exists m, 1 <= m /\ all_long m (layer_chunks L l) /\ unpadded_width Ls m = Some w.
Proof.
  intros HL Hw Hn Hl. destruct L as [c|g]; cbn [unpadded_width layer_chunks] in *.
  - destruct HL as [Hv Hs]. destruct (n <? kspan c) eqn:E; [discriminate|]. exists ((n - kspan c) / strd c + 1). split; [apply Nat.le_add_l|]. split; auto.
    replace ((n - kspan c) / strd c + 1) with (nwin c n) by (unfold nwin; now rewrite E). now apply ideal_long.
  - exists n. split; auto. split; auto. unfold all_long in *. rewrite Forall_map. eapply Forall_impl; [|exact Hl]. cbv beta. intros r Hr. cbn [set_data cdat]. now rewrite map_length.
Qed.

Lemma long_survives_through w : forall Ls n l, Forall good_layer Ls -> 1 <= n -> unpadded_width Ls n = Some w -> all_long n l -> survives_through Ls l.
Proof.
  induction Ls as [|L Ls IH]; intros n l HL Hn Hw Hl; cbn [survives_through]; (split; [eapply long_flagged; eauto|]); auto.
  inversion HL; subst. destruct (long_layer L n l w Ls) as (m & H3 & H4 & H5); auto. eapply IH; eauto.
Qed.

Lemma long_filled w : forall Ls n l, Forall good_layer Ls -> 1 <= n -> unpadded_width Ls n = Some w -> all_long n l -> filled Ls l.
Proof.
  induction Ls as [|L Ls IH]; intros n l HL Hn Hw Hl; cbn [filled]; auto. inversion HL; subst. split.
  - destruct L as [c|g]; auto. cbn [unpadded_width] in Hw. destruct (n <? kspan c) eqn:E; [discriminate|]. unfold all_long in Hl.
    eapply Forall_impl; [|exact Hl]. cbv beta. intros r Hr _ _. lia.
  - destruct (long_layer L n l w Ls) as (m & H3 & H4 & H5); auto. eapply IH; eauto.
Qed.

Theorem groups_collected Ls z z' (bss : list (list (sample V))) n w : Forall overlapping Ls -> Forall unit_stride Ls -> zero_preserving z Ls z' ->
  1 <= n -> unpadded_width Ls n = Some w ->
  Forall (fun b => b <> [] /\ NoDup (map sid b)) bss ->
  (forall f, of_file f (List.concat bss) = [] \/ complete_file (of_file f (List.concat bss))) ->
  Forall (own_chunk n) (List.concat bss) ->
  Forall (fun b => Forall (fun s => ssos s = true) b \/ Forall (fun s => ssos s = false) b) bss ->
  exists c, stream_gen Ls (fresh Ls) new_collector (gmapM (custom_collate z) (gen_of bss)) = Ok c /\
    forall f, (of_file f (List.concat bss) = [] -> entries c f = None) /\
      forall e, nth_error (of_file f (List.concat bss)) (length (of_file f (List.concat bss)) - 1) = Some e ->
        entries c f = Some (file_output Ls f (List.concat (map sdata (of_file f (List.concat bss)))) (sidx e)).
Proof.
  intros HO Hu Hz Hn Hw Hb Hf Ho Hph.
  assert (HL : Forall good_layer Ls) by (eapply Forall_impl; [apply overlapping_good|auto]).
  assert (Ho1 : Forall (own_chunk 1) (List.concat bss)) by (eapply Forall_impl; [|exact Ho]; intros s [H1 H2]; split; auto; lia).
  destruct (sched_good bss Hb Hf Ho1) as (Hg & Ht & Hc).
  assert (Hl : Forall (fun t : tens V => Forall (fun r => n <= length (cdat r)) (trows t)) (sched_of bss)).
  { apply Forall_forall. intros t Hin. unfold sched_of in Hin. apply in_map_iff in Hin as (b & <- & Hin). apply Forall_forall. intros r Hr. cbn [tens_of_batch trows] in Hr.
    unfold rows_of in Hr. apply in_map_iff in Hr as (s & <- & Hs). rewrite sort_in in Hs. rewrite Forall_forall in Ho. apply Ho. apply in_concat. eauto. }
  assert (Hlong : forall f, all_long n (stream_of f (map trows (sched_of bss)))).
  { apply long_chunk. now rewrite Forall_map. }
  destruct (stack_long Ls z z' (sched_of bss) n w HO Hz Hg Ht Hn Hl Hw) as [Hsv (ys & sts' & Hrun)].
  eapply all_kept; eauto.
  - intros f. eapply long_survives_through; eauto.
  - apply carried_phase; auto.
    + now rewrite !map_length.
    + unfold in_phase, sched_of. rewrite map_map, Forall_map. eapply Forall_impl; [|exact Hph]. cbv beta. intros b Hb'. cbn [tens_of_batch trows]. unfold rows_of.
      destruct Hb' as [H|H]; [left|right]; intros r Hr; apply in_map_iff in Hr as (s & <- & Hs); rewrite sort_in in Hs; rewrite Forall_forall in H; exact (H s Hs).
    + intros f. eapply long_filled; eauto.
Qed.

(* ---------- whole files ---------- *)

Lemma whole_layer (L : layer V) i d k : layer_chunks L [mkChunk i true true d k] = [mkChunk i true true (layer_offline L d) k].
Proof. destruct L; reflexivity. Qed.

Lemma fruitful_survives i k : forall Ls d, fruitful Ls d -> survives_through Ls [mkChunk i true true d k].
Proof.
  induction Ls as [|L Ls IH]; intros d [H1 H2]; cbn [survives_through]; (split; [constructor; [auto|constructor]|]); auto. rewrite whole_layer. auto.
Qed.

Lemma started_alive : forall Ls (sched : list (list (chunk V))), good_schedule sched -> Forall (Forall (fun r => csos r = true)) sched ->
  (forall i, survives_through Ls (stream_of i sched)) -> alive Ls sched.
Proof.
  induction Ls as [|L Ls IH]; intros sched Hg Hs Hsv; cbn [alive]; auto. pose proof Hg as [Hg1 _].
  assert (Hs' : Forall (Forall (fun r => csos r = true)) (layer_schedule L sched)).
  { pose proof (layer_schedule_follows L sched Hg1) as HF. clear - HF Hs. induction HF as [|a b s t Hab HF IH]; constructor; inversion Hs as [|? ? H1 H2]; subst; auto.
    clear - Hab H1. induction Hab as [|x y a b (_ & E & _) Hab IH]; constructor; inversion H1; subst; auto. congruence. }
  assert (Hsv' : forall i, survives_through Ls (stream_of i (layer_schedule L sched))).
  { intros i. rewrite layer_schedule_stream by auto. apply (Hsv i). }
  assert (Hfl : forall i, flagged_nonempty (stream_of i (layer_schedule L sched))) by (intros i; specialize (Hsv' i); destruct Ls; apply Hsv').
  split.
  - destruct L as [c|g]; auto. apply Forall_forall. intros rs Hrs.
    assert (Hne : rs <> []).
    { pose proof (layer_schedule_follows (LConv c) sched Hg1) as HF. clear - HF Hg1 Hrs. induction HF as [|a b s t Hab HF IH]; [destruct Hrs|].
      inversion Hg1 as [|? ? (Hn & _) Hg2]; subst. destruct Hrs as [<-|Hrs]; auto. intros ->. inversion Hab; subst. congruence. }
    destruct rs as [|r rs]; [congruence|]. exists r. split; [now left|]. specialize (Hfl (cid r)). unfold flagged_nonempty in Hfl. rewrite Forall_forall in Hfl. apply Hfl.
    + apply filter_In. split; [apply in_concat; exists (r :: rs); split; auto; now left|apply String.eqb_refl].
    + left. rewrite Forall_forall in Hs'. specialize (Hs' _ Hrs). inversion Hs'; auto.
  - apply IH; auto. eapply good_follows; eauto. now apply layer_schedule_follows.
Qed.

Theorem whole_collected Ls z z' (bss : list (list (sample V))) : Forall overlapping Ls -> zero_preserving z Ls z' ->
  Forall (fun b => b <> [] /\ NoDup (map sid b)) bss ->
  (forall f, of_file f (List.concat bss) = [] \/ exists d k m, of_file f (List.concat bss) = [mkSample d true true (Z.of_nat (length d)) k m f] /\ fruitful Ls d) ->
  exists c, stream_gen Ls (fresh Ls) new_collector (gmapM (custom_collate z) (gen_of bss)) = Ok c /\
    forall f, (of_file f (List.concat bss) = [] -> entries c f = None) /\
      forall d k m, of_file f (List.concat bss) = [mkSample d true true (Z.of_nat (length d)) k m f] ->
        entries c f = Some (file_output Ls f d k).
Proof.
  intros HO Hz Hb Hf.
  assert (HL : Forall good_layer Ls) by (eapply Forall_impl; [apply overlapping_good|auto]).
  assert (Hin : forall s, In s (List.concat bss) -> exists d k m, s = mkSample d true true (Z.of_nat (length d)) k m (sid s) /\ fruitful Ls d).
  { intros s Hs. assert (G : In s (of_file (sid s) (List.concat bss))) by (apply filter_In; split; auto; apply String.eqb_refl).
    destruct (Hf (sid s)) as [E|(d & k & m & E & Hd)]; rewrite E in G; [destruct G|]. destruct G as [G|[]]. eauto 10. }
  assert (Hfd : forall d, fruitful Ls d -> d <> []) by (intros d H; destruct Ls; apply H).
  assert (Ho1 : Forall (own_chunk 1) (List.concat bss)).
  { apply Forall_forall. intros s Hs. destruct (Hin s Hs) as (d & k & m & -> & Hd). split; [|reflexivity]. cbn [sdata]. apply Hfd in Hd. destruct d; [congruence|cbn [length]; lia]. }
  assert (Hf' : forall f, of_file f (List.concat bss) = [] \/ complete_file (of_file f (List.concat bss))).
  { intros f. destruct (Hf f) as [E|(d & k & m & E & Hd)]; [now left|right]. rewrite E. split; [discriminate|]. intros [|j] s Hj; [|destruct j; discriminate].
    inversion Hj; subst. split; reflexivity. }
  destruct (sched_good bss Hb Hf' Ho1) as (Hg & Ht & Hc).
  assert (Hnd : Forall (fun b => NoDup (map sid b)) bss) by (eapply Forall_impl; [|exact Hb]; cbv beta; tauto).
  assert (Hst : forall f, survives_through Ls (stream_of f (map trows (sched_of bss)))).
  { intros f. rewrite stream_file by auto. destruct (Hf f) as [E|(d & k & m & E & Hd)]; rewrite E; cbn [map].
    - clear. induction Ls as [|L Ls IH]; cbn [survives_through]; (split; [constructor|]); auto. destruct L; exact IH.
    - unfold own. cbn. now apply fruitful_survives. }
  assert (Hs : Forall (Forall (fun r => csos r = true)) (map trows (sched_of bss))).
  { unfold sched_of. rewrite map_map, Forall_map. apply Forall_forall. intros b Hbin. cbn [tens_of_batch trows]. unfold rows_of. apply Forall_forall. intros r Hr.
    apply in_map_iff in Hr as (s & <- & Hs). rewrite sort_in in Hs. destruct (Hin s) as (d & k & m & -> & _); [apply in_concat; eauto|reflexivity]. }
  assert (Hsv : forall i, survives Ls (stream_of i (map trows (sched_of bss)))) by (intros i; apply survives_through_survives, Hst).
  assert (Hrun : exists ys sts', stack_run Ls (fresh Ls) (map (tensor_of z) (sched_of bss)) = Ok (ys, sts')).
  { apply (stack_succeeds z'); auto. apply started_alive; auto. }
  destruct Hrun as (ys & sts' & Hrun).
  destruct (all_kept Ls z z' bss ys sts') as (c & Hsg & Hent); auto.
  { apply carried_whole; auto. now rewrite !map_length. }
  exists c. split; auto. intros f. destruct (Hent f) as [H1 H2]. split; auto. intros d k m E. rewrite E in H2.
  specialize (H2 _ eq_refl). cbn [map List.concat sdata sidx] in H2. rewrite app_nil_r in H2. exact H2.
Qed.

Lemma one_chunk (w : world V) d f raw rate c : load w f = Ok (raw, rate) ->
  chunk_size (dcn d) (dcd d) rate (zlen raw) (zlen (transform w raw)) = Ok c -> (zlen (transform w raw) <= c)%Z ->
  yields (process_data w d f) [mkSample (transform w raw) true true (zlen (transform w raw)) 0 1 f].
Proof.
  intros Hl Hc Hle.
  assert (HL : (0 < zlen (transform w raw))%Z).
  { unfold chunk_size in Hc. destruct (zlen (transform w raw) =? 0)%Z eqn:E; [discriminate|]. unfold zlen in *; lia. }
  destruct (process_spec w d f raw rate c Hl Hc ltac:(lia)) as (l & Hy & Hcf & Hlen & Hsum & Hk).
  assert (El : length l = 1) by nia.
  destruct (process_pieces w d f raw rate c Hl Hc ltac:(lia)) as (l' & Hy' & Hd & _).
  assert (l' = l).
  { unfold yields in *. rewrite Hy in Hy'. clear - Hy'. revert l' Hy'. induction l as [|a l IH]; intros [|b l'] H; cbn in H; try discriminate; auto. inversion H; subst. f_equal. now apply IH. }
  subst l'. destruct l as [|s [|? ?]]; try discriminate. destruct (Hk 0 s eq_refl) as (H1 & H2 & H3 & H4 & _). destruct Hcf as [_ Hcf]. destruct (Hcf 0 s eq_refl) as [H5 H6].
  inversion Hd; subst. cbn [map zsum fold_right] in Hsum. unfold zsum in Hsum. cbn [fold_right] in Hsum.
  unfold yields in *. rewrite Hy. f_equal. f_equal. destruct s as [sd0 so0 eo0 le0 ix0 nu0 id0]. cbn [Data.sdata ssos seos slen sidx snum sid] in *.
  change (Z.of_nat (length [_])) with 1%Z in H3. change (Z.of_nat 0) with 0%Z in H2. cbn [length Nat.eqb] in *. subst. f_equal; auto. lia.
Qed.

(** The loader over files of one chunk each. *)
Theorem short_files Ls z z' (w : world V) d bs sh nw ov ld order : Forall overlapping Ls -> zero_preserving z Ls z' ->
  new_loader (inl d) bs sh nw ov false = Ok ld ->
  (0 < bs)%Z -> (bs mod (Z.max 1 nw) = 0)%Z -> splittable w d -> NoDup (dfiles d) -> (ov = false -> dfiles d <> []) ->
  Permutation order (seq 0 (length (dfiles d))) ->
  (forall f, In f (dfiles d) -> exists raw rate c, load w f = Ok (raw, rate) /\
     chunk_size (dcn d) (dcd d) rate (zlen raw) (zlen (transform w raw)) = Ok c /\ (zlen (transform w raw) <= c)%Z /\ fruitful Ls (transform w raw)) ->
  exists ds, loader_datasets w ld order = Ok ds /\
  forall shuffles, Forall2 (@Permutation string) shuffles (map dfiles ds) ->
  exists n c, (forall fuel, n <= fuel -> stream_loader fuel w ld order shuffles Ls z = Some (Ok c)) /\
    (forall f raw rate, In f (dfiles d) -> load w f = Ok (raw, rate) -> entries c f = Some (file_output Ls f (transform w raw) 0)) /\
    (forall f, ~ In f (dfiles d) -> entries c f = None).
Proof.
  intros HO Hz Hld Hbs Hmod Hsp Hnd Hov Hord Hfiles.
  set (S0 := fun f => match load w f with Ok (raw, _) => [mkSample (transform w raw) true true (zlen (transform w raw)) 0 1 f] | Err _ => [] end).
  destruct (loader_spec w d bs sh nw ov ld S0 order Hld Hbs Hmod Hsp Hnd Hov Hord) as (ds & D1 & D2 & D3 & D4).
  { intros f Hf. destruct (Hfiles f Hf) as (raw & rate & c & Hl & Hc & Hle & Hfr). unfold S0. rewrite Hl. split; [eapply one_chunk; eauto|].
    split; [discriminate|]. intros [|j] s Hj; [|destruct j; discriminate]. inversion Hj; subst. split; reflexivity. }
  exists ds. split; auto. intros shuffles Hsh. destruct (D4 shuffles Hsh) as (n & out & O1 & O2 & O3 & O4 & _).
  assert (Hnone : forall f, ~ In f (dfiles d) -> of_file f (List.concat out) = []).
  { intros f Hf. destruct (of_file f (List.concat out)) as [|s t] eqn:E; auto. exfalso. apply Hf.
    assert (G : In s (of_file f (List.concat out))) by (rewrite E; now left). apply filter_In in G as [G1 G2]. apply String.eqb_eq in G2. subst f. now apply O4. }
  destruct (whole_collected Ls z z' out HO Hz) as (c & Hc & Hent).
  - eapply Forall_impl; [|exact O2]. cbv beta. intros b [H1 H2]. split; auto. intros ->. cbn in H1. lia.
  - intros f. destruct (in_dec string_dec f (dfiles d)) as [Hf|Hf]; [right|left; auto].
    destruct (Hfiles f Hf) as (raw & rate & k & Hl & Hk & Hle & Hfr). rewrite (O3 f Hf). unfold S0. rewrite Hl. unfold zlen. eauto 10.
  - exists n, c. split; [|split].
    + intros fuel Hfuel. unfold stream_loader, loader_iter. rewrite (O1 fuel Hfuel), Hc. reflexivity.
    + intros f raw rate Hf Hl. destruct (Hent f) as [_ H]. apply (H (transform w raw) 0%Z 1%Z). rewrite (O3 f Hf). unfold S0. rewrite Hl. reflexivity.
    + intros f Hf. apply Hent. auto.
Qed.

End DataStreamEnd.

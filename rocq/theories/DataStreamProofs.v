(** Proofs about data loaders in front of a network. *)

From Coq Require Import String List ZArith Bool Lia Permutation.
From Coq Require Import ZifyBool.
From Verif Require Import Py Meta MetaSpec Pad Conv ConvSpec ConvProofs ConvRunProofs ConvStreamProofs ConvMoreProofs
  Stack StackSpec StackProofs StackLiveProofs Collector CollectorSpec PipelineSpec PipelineProofs Program
  KeepSpec KeepProofs KeepNetProofs KeepGroupProofs Data DataSpec PartitionProofs DataStream DataStreamSpec.
Import ListNotations.
Open Scope nat_scope.

Section DataStreamProofs.
Context {V : Type}.
Implicit Types (Ls : list (layer V)) (b : list (sample V)) (s : sample V).

Lemma stream_gen_loop Ls : forall xs sts c, stream_gen Ls sts c (gen_of xs) = stream_loop Ls sts c xs.
Proof.
  induction xs as [|x xs IH]; intros sts c; cbn [gen_of stream_gen stream_loop]; auto.
  destruct (stack_call Ls sts x) as [[y sts1]|e]; cbn [bind]; auto. destruct (update c [InBatch y]) as [c1 [e|]]; auto.
Qed.

Lemma stream_gen_ok Ls : forall g sts c c', stream_gen Ls sts c g = Ok c' -> exists xs, g = gen_of xs.
Proof.
  induction g as [|e|x g IH]; intros sts c c' H; cbn [stream_gen] in H.
  - exists []. reflexivity.
  - discriminate.
  - destruct (stack_call Ls sts x) as [[y sts1]|e]; cbn [bind] in H; [|discriminate].
    destruct (update c [InBatch y]) as [c1 [e|]]; [discriminate|]. destruct (IH _ _ _ H) as [xs ->]. now exists (x :: xs).
Qed.

Lemma stream_loader_ok fuel (w : world V) ld order shuffles Ls z c : stream_loader fuel w ld order shuffles Ls z = Some (Ok c) <->
  exists xs, loader_iter fuel w ld order shuffles (Some (custom_collate z)) = Some (gen_of xs) /\ stream_loop Ls (fresh Ls) new_collector xs = Ok c.
Proof.
  unfold stream_loader. destruct (loader_iter fuel w ld order shuffles (Some (custom_collate z))) as [g|].
  - split.
    + intros H. injection H as H. destruct (stream_gen_ok _ _ _ _ _ H) as [xs ->]. exists xs. now rewrite <- stream_gen_loop.
    + intros (xs & E & H). injection E as ->. now rewrite stream_gen_loop, H.
  - split; [discriminate|]. intros (xs & E & _). discriminate.
Qed.

(* ---------- collation ---------- *)

Definition own s : chunk V := mkChunk (sid s) (ssos s) (seos s) (sdata s) (sidx s).
Definition rows_of b : list (chunk V) := map own (sort_desc b).
Definition tens_of_batch b : tens V := mkTens (longest (rows_of b)) true (rows_of b).

Lemma sort_in b s : In s (sort_desc b) <-> In s b.
Proof. destruct (sort_spec b) as (_ & H & _). split; apply Permutation_in; auto. now apply Permutation_sym. Qed.

Lemma max_nat_longest (l : list (list V)) : max_nat (map (@length V) l) = fold_right Nat.max 0 (map (@length V) l).
Proof. induction l as [|a l IH]; [reflexivity|]. cbn [map fold_right]. rewrite <- IH. reflexivity. Qed.

Lemma collate_own z b : b <> [] -> Forall (own_chunk 1) b -> custom_collate z b = Ok (tensor_of z (tens_of_batch b)).
Proof.
  intros Hne H. unfold custom_collate. destruct (sort_desc b) as [|s0 t0] eqn:E.
  { destruct (sort_spec b) as (_ & Hp & _). rewrite E in Hp. apply Permutation_nil in Hp. congruence. }
  rewrite <- E. cbv zeta. unfold torch_pad_sequence. replace (map sdata (sort_desc b)) with (sdata s0 :: map sdata t0) by now rewrite E.
  change (sdata s0 :: map sdata t0) with (map sdata (s0 :: t0)). rewrite <- E. cbn [bind]. unfold make_meta. rewrite !map_length, !Nat.eqb_refl. cbn [andb bind].
  f_equal. unfold tens_of_batch, tensor_of, batch_with. cbn [tw th trows].
  assert (Ew : max_nat (map (@length V) (map sdata (sort_desc b))) = longest (rows_of b)).
  { rewrite max_nat_longest. unfold longest, rows_of. rewrite !map_map. reflexivity. }
  rewrite Ew. f_equal.
  - set (n := longest (rows_of b)). unfold rows_of. rewrite !map_map. reflexivity.
  - unfold of_rows, rows_of. rewrite !map_map. cbn [rid rsos reos rlen rch own cid csos ceos cdat cch]. f_equal.
    apply map_ext_in. intros s Hs. rewrite sort_in in Hs. rewrite Forall_forall in H. apply (H s Hs).
Qed.

Lemma collate_all z : forall bss, Forall (fun b => b <> [] /\ Forall (own_chunk 1) b) bss ->
  gmapM (custom_collate z) (gen_of bss) = gen_of (map (tensor_of z) (map tens_of_batch bss)).
Proof.
  induction bss as [|b bss IH]; intros H; [reflexivity|]. inversion H as [|? ? [H1 H2] H3]; subst. cbn [gen_of gmapM map].
  rewrite collate_own by auto. now rewrite IH.
Qed.

(* ---------- the schedule ---------- *)

Lemma filter_perm_one (f : string) (a b : list (sample V)) : Permutation a b -> NoDup (map sid b) -> of_file f a = of_file f b.
Proof.
  intros Hp Hnd. assert (G : Permutation (of_file f a) (of_file f b)).
  { unfold of_file. clear Hnd. induction Hp; cbn [filter]; auto.
    - destruct (String.eqb (sid x) f); auto.
    - destruct (String.eqb (sid x) f), (String.eqb (sid y) f); auto. apply perm_swap.
    - etransitivity; eauto. }
  assert (L : length (of_file f b) <= 1).
  { clear - Hnd. unfold of_file. induction b as [|x b IH]; [auto|]. cbn [map] in Hnd. inversion Hnd as [|? ? Hn Hd]; subst. cbn [filter].
    destruct (String.eqb_spec (sid x) f) as [<-|]; [|auto]. cbn [length]. replace (filter (fun s => String.eqb (sid s) (sid x)) b) with (@nil (sample V)); auto.
    symmetry. clear - Hn. induction b as [|y b IH]; auto. cbn [filter]. destruct (String.eqb_spec (sid y) (sid x)) as [E|].
    - exfalso. apply Hn. left. auto.
    - apply IH. intros H. apply Hn. now right. }
  destruct (of_file f b) as [|x [|y t]]; cbn [length] in L; [|  |lia].
  - apply Permutation_sym, Permutation_nil in G. auto.
  - apply Permutation_sym, Permutation_length_1_inv in G. auto.
Qed.

Definition sched_of (bss : list (list (sample V))) : list (tens V) := map tens_of_batch bss.

Lemma stream_file f : forall bss, Forall (fun b => NoDup (map sid b)) bss ->
  stream_of f (map trows (sched_of bss)) = map own (of_file f (List.concat bss)).
Proof.
  induction bss as [|b bss IH]; intros H; [reflexivity|]. inversion H as [|? ? H1 H2]; subst.
  unfold sched_of, stream_of, of_file in *. cbn [map List.concat tens_of_batch trows]. rewrite !filter_app, map_app. f_equal; [|now apply IH].
  unfold rows_of. destruct (sort_spec b) as (_ & Hp & _). pose proof (filter_perm_one f (sort_desc b) b Hp H1) as E. unfold of_file in E. rewrite <- E. clear E Hp.
  induction (sort_desc b) as [|s t IHt]; auto. cbn [map filter own cid]. fold (own s). destruct (String.eqb (sid s) f); cbn [map]; now rewrite IHt.
Qed.

Lemma own_complete l : complete_file l -> complete (map own l).
Proof.
  intros [Hne H]. split; [now destruct l|]. intros k r Hk. rewrite nth_error_map in Hk. destruct (nth_error l k) as [s|] eqn:E; [|discriminate].
  cbn in Hk. inversion Hk; subst. cbn [own csos ceos]. rewrite map_length. now apply H.
Qed.

Lemma sched_good (bss : list (list (sample V))) : Forall (fun b => b <> [] /\ NoDup (map sid b)) bss ->
  (forall f, of_file f (List.concat bss) = [] \/ complete_file (of_file f (List.concat bss))) ->
  Forall (own_chunk 1) (List.concat bss) ->
  good_schedule (map trows (sched_of bss)) /\ Forall tight (sched_of bss) /\
  (forall f, stream_of f (map trows (sched_of bss)) = [] \/ complete (stream_of f (map trows (sched_of bss)))).
Proof.
  intros Hb Hf Ho. assert (Hnd : Forall (fun b => NoDup (map sid b)) bss) by (eapply Forall_impl; [|exact Hb]; cbv beta; tauto).
  assert (Hc : forall f, stream_of f (map trows (sched_of bss)) = [] \/ complete (stream_of f (map trows (sched_of bss)))).
  { intros f. rewrite stream_file by auto. destruct (Hf f) as [->|H]; [now left|right; now apply own_complete]. }
  split; [split|split; [|auto]].
  - apply Forall_forall. intros rs Hrs. unfold sched_of in Hrs. rewrite map_map in Hrs. apply in_map_iff in Hrs as (b & <- & Hin).
    rewrite Forall_forall in Hb. destruct (Hb b Hin) as [Hne Hn]. cbn [tens_of_batch trows]. unfold rows_of. destruct (sort_spec b) as (_ & Hp & _). split; [|split].
    + intros E. apply map_eq_nil in E. rewrite E in Hp. apply Permutation_nil in Hp. congruence.
    + rewrite map_map. cbn [own cid]. eapply Permutation_NoDup; [|exact Hn]. apply Permutation_map. now apply Permutation_sym.
    + apply Forall_forall. intros r Hr _. apply in_map_iff in Hr as (s & <- & Hs). rewrite sort_in in Hs. rewrite Forall_forall in Ho.
      assert (G : In s (List.concat bss)) by (apply in_concat; eauto). destruct (Ho s G) as [H1 _]. cbn [own cdat]. intros E. rewrite E in H1. cbn in H1. lia.
  - intros f. destruct (Hc f) as [->|H]; [exact I|]. now apply complete_protocol.
  - apply Forall_forall. intros t Ht. unfold sched_of in Ht. apply in_map_iff in Ht as (b & <- & _). reflexivity.
Qed.

(* ---------- collected ---------- *)

Lemma last_nth {A} (l : list A) d : l <> [] -> nth_error l (length l - 1) = Some (last l d).
Proof.
  destruct l as [|a l] using rev_ind; [congruence|]. intros _. rewrite last_last, app_length, nth_error_app2; cbn [length]; [|lia].
  now replace (length l + 1 - 1 - length l) with 0 by lia.
Qed.

(** All batches keep their indices. *)
Lemma all_kept Ls z z' (bss : list (list (sample V))) ys sts' : Forall good_layer Ls -> zero_preserving z Ls z' ->
  Forall (fun b => b <> [] /\ NoDup (map sid b)) bss ->
  (forall f, of_file f (List.concat bss) = [] \/ complete_file (of_file f (List.concat bss))) ->
  Forall (own_chunk 1) (List.concat bss) ->
  (forall f, survives_through Ls (stream_of f (map trows (sched_of bss)))) ->
  stack_run Ls (fresh Ls) (map (tensor_of z) (sched_of bss)) = Ok (ys, sts') ->
  carried Ls (map trows (sched_of bss)) (map th (sched_of bss)) = map th (sched_of bss) ->
  exists c, stream_gen Ls (fresh Ls) new_collector (gmapM (custom_collate z) (gen_of bss)) = Ok c /\
    forall f, (of_file f (List.concat bss) = [] -> entries c f = None) /\
      forall e, nth_error (of_file f (List.concat bss)) (length (of_file f (List.concat bss)) - 1) = Some e ->
        entries c f = Some (file_output Ls f (List.concat (map sdata (of_file f (List.concat bss)))) (sidx e)).
Proof.
  intros HL Hz Hb Hf Ho Hsv Hrun Hk. destruct (sched_good bss Hb Hf Ho) as (Hg & Ht & Hc).
  assert (Hnd : Forall (fun b => NoDup (map sid b)) bss) by (eapply Forall_impl; [|exact Hb]; cbv beta; tauto).
  destruct (collected_network Ls z z' (sched_of bss) ys sts' HL Hz Hg Ht Hc Hsv Hrun) as [A _]. rewrite Hk in A.
  assert (Hth : forall j h, nth_error (map th (sched_of bss)) j = Some h -> h = true).
  { intros j h Hj. unfold sched_of in Hj. rewrite map_map in Hj. rewrite nth_error_map in Hj. destruct (nth_error bss j); [|discriminate]. cbn in Hj. congruence. }
  destruct A as (c & Hs & Hent).
  { intros j k h g rs qs r q Hj Hk' _ _ _ _ _ _ _. rewrite (Hth _ _ Hj), (Hth _ _ Hk'). reflexivity. }
  exists c. split.
  { rewrite collate_all; [fold (sched_of bss); now rewrite stream_gen_loop|]. apply Forall_forall. intros b Hin. rewrite Forall_forall in Hb, Ho.
    split; [apply (Hb b Hin)|]. apply Forall_forall. intros s Hs'. apply Ho. apply in_concat. eauto. }
  intros f. destruct (Hent f) as [H1 H2]. rewrite stream_file in H1, H2 by auto. split.
  - intros E. apply H1. rewrite E. reflexivity.
  - intros e He. rewrite map_length, nth_error_map, He in H2. cbn [option_map] in H2.
    (* a batch in which the file has output *)
    set (os := out_schedule Ls (map trows (sched_of bss))) in *.
    assert (Hsv' : forall i, survives Ls (stream_of i (map trows (sched_of bss)))) by (intros i; apply survives_through_survives, Hsv).
    assert (Eo : stream_of f os = fold_left (fun l L => layer_chunks L l) Ls (stream_of f (map trows (sched_of bss)))).
    { apply out_schedule_stream; auto. }
    pose proof (stack_follows Ls (stream_of f (map trows (sched_of bss)))) as Hfo. rewrite <- Eo in Hfo.
    destruct (Hf f) as [E|Hcf]; [rewrite E in He; destruct (length [] - 1); discriminate|].
    assert (Hcs : complete (stream_of f os)).
    { eapply follows_complete; [exact Hfo|]. rewrite stream_file by auto. now apply own_complete. }
    destruct Hcs as [Hne Hpos]. destruct (stream_of f os) as [|r0 rest] eqn:Es; [congruence|].
    assert (Hr0 : In r0 (stream_of f os)) by (rewrite Es; now left).
    assert (Hd0 : cdat r0 <> []).
    { destruct (survives_through_survives _ _ (Hsv f)) as [_ Hfl]. rewrite <- Eo in Hfl. unfold flagged_nonempty in Hfl. rewrite Forall_forall in Hfl.
      apply Hfl; [now left|]. left. apply (Hpos 0 r0 eq_refl). }
    apply filter_In in Hr0 as [Hr0 Hi0]. apply String.eqb_eq in Hi0. apply in_concat in Hr0 as (rs & Hrs & Hin). apply In_nth_error in Hrs as (j & Hj).
    assert (Hh : nth_error (map th (sched_of bss)) j = Some true).
    { assert (Hlen : length os = length (sched_of bss)).
      { unfold os. rewrite <- (map_length trows (sched_of bss)). generalize (map trows (sched_of bss)). clear. induction Ls as [|L Ls IH]; intros s0; [reflexivity|].
        cbn [out_schedule fold_left]. change (length (out_schedule Ls (layer_schedule L s0)) = length s0). rewrite IH. apply layer_schedule_length. }
      assert (j < length (sched_of bss)) by (rewrite <- Hlen; apply nth_error_Some; congruence).
      destruct (nth_error (map th (sched_of bss)) j) as [h|] eqn:Eh; [now rewrite (Hth _ _ Eh)|]. apply nth_error_None in Eh. rewrite map_length in Eh. lia. }
    specialize (H2 (own e) j true rs eq_refl Hh Hj). rewrite H2; [|exists r0; auto]. unfold file_output, data_of. rewrite map_map. reflexivity.
Qed.

End DataStreamProofs.

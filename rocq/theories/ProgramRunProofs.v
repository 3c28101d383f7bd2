(** Proofs about the example program: random chunks, random batches, the whole run. *)

From Coq Require Import String List ZArith Bool Lia.
From Coq Require Import ZifyBool.
From Verif Require Import Py Meta MetaSpec MetaProofs MetaSplitProofs Pad PadProofs Conv ConvSpec ConvProofs ConvRunProofs ConvStreamProofs
  ConvMoreProofs Stack StackSpec StackProofs Pipeline PipelineSpec Collector CollectorSpec CollectorProofs PipelineProofs Program
  ProgramSpec ProgramProofs.
Import ListNotations.
Open Scope nat_scope.

(* ---------- random chunks ---------- *)

Lemma zsum_snoc l a : zsum (l ++ [a]) = (zsum l + a)%Z.
Proof. rewrite zsum_app. cbn. lia. Qed.

Lemma random_chunks_eq full acc draws : random_chunks full acc draws =
  if (0 <? full - zsum acc)%Z
  then match draws with [] => None | d :: t => random_chunks full (acc ++ [Z.min d (full - zsum acc)]) t end
  else Some (acc, draws).
Proof. destruct draws; reflexivity. Qed.

Lemma random_chunks_inv mn mx full : (1 <= mn)%Z -> forall draws acc cs rest,
  Forall (fun d => mn <= d <= mx)%Z draws -> Forall (fun c => mn <= c <= mx)%Z acc -> (zsum acc < full)%Z ->
  random_chunks full acc draws = Some (cs, rest) ->
  random_cut mn mx full cs /\ exists used, draws = used ++ rest /\ length acc + length used = length cs.
Proof.
  intros Hmn. induction draws as [|d draws IH]; intros acc cs rest Hd Hacc Hlt H; rewrite random_chunks_eq in H.
  - replace (0 <? full - zsum acc)%Z with true in H by lia. discriminate.
  - replace (0 <? full - zsum acc)%Z with true in H by lia. inversion Hd; subst.
    destruct (Z_lt_ge_dec d (full - zsum acc)) as [Hs|Hs].
    + replace (Z.min d (full - zsum acc)) with d in H by lia.
      apply IH in H as [H (used & -> & Hl)]; auto.
      * split; auto. exists (d :: used). split; [reflexivity|]. rewrite app_length in Hl. cbn [length] in *. lia.
      * apply Forall_app. split; auto.
      * rewrite zsum_snoc. lia.
    + replace (Z.min d (full - zsum acc)) with (full - zsum acc)%Z in H by lia. rewrite random_chunks_eq in H.
      replace (0 <? full - zsum (acc ++ [(full - zsum acc)%Z]))%Z with false in H by (rewrite zsum_snoc; lia).
      inversion H; subst. split.
      * split; [rewrite zsum_snoc; lia|]. exists acc, (full - zsum acc)%Z. split; auto. split; auto. lia.
      * exists [d]. split; [reflexivity|]. rewrite app_length. reflexivity.
Qed.

Theorem random_chunks_cut mn mx full draws cs rest : (1 <= mn)%Z -> (0 < full)%Z ->
  Forall (fun d => mn <= d <= mx)%Z draws -> random_chunks full [] draws = Some (cs, rest) ->
  random_cut mn mx full cs /\ exists used, draws = used ++ rest /\ length used = length cs.
Proof.
  intros Hmn Hf Hd H. destruct (random_chunks_inv mn mx full Hmn draws [] cs rest Hd) as [A B]; auto.
Qed.

Lemma zsum_pos : forall l, Forall (fun d => 0 < d)%Z l -> (0 <= zsum l)%Z.
Proof. intros l H. induction H; cbn [zsum fold_right]; [lia|]. unfold zsum in *. lia. Qed.

Lemma random_chunks_ends_gen full : forall draws acc, Forall (fun d => 0 < d)%Z draws ->
  (random_chunks full acc draws <> None <-> (full <= zsum acc + zsum draws)%Z).
Proof.
  induction draws as [|d draws IH]; intros acc Hd; rewrite random_chunks_eq.
  - destruct (0 <? full - zsum acc)%Z eqn:E.
    + split; [congruence|]. cbn. lia.
    + split; [|congruence]. cbn. lia.
  - inversion Hd; subst. pose proof (zsum_pos draws H2). assert (Ez : zsum (d :: draws) = (d + zsum draws)%Z) by reflexivity.
    destruct (0 <? full - zsum acc)%Z eqn:E.
    + rewrite IH by auto. rewrite zsum_snoc. lia.
    + split; [lia|congruence].
Qed.

Theorem random_chunks_ends full draws : Forall (fun d => 0 < d)%Z draws ->
  (random_chunks full [] draws <> None <-> (full <= zsum draws)%Z).
Proof. intros H. rewrite random_chunks_ends_gen by auto. cbn [zsum fold_right]. unfold zsum. cbn. tauto. Qed.

Theorem random_chunks_stuck full : forall draws acc, Forall (fun d => d <= 0)%Z draws -> (zsum acc < full)%Z ->
  random_chunks full acc draws = None.
Proof.
  induction draws as [|d draws IH]; intros acc Hd Hs; rewrite random_chunks_eq; replace (0 <? full - zsum acc)%Z with true by lia; auto.
  inversion Hd; subst. apply IH; auto. rewrite zsum_snoc. lia.
Qed.

Theorem all_chunks_cut mn mx : (1 <= mn)%Z -> forall fulls draws css, Forall (fun n => 0 < n)%Z fulls ->
  Forall (fun d => mn <= d <= mx)%Z draws -> all_chunks fulls draws = Some css -> Forall2 (random_cut mn mx) fulls css.
Proof.
  intros Hmn. induction fulls as [|n fulls IH]; intros draws css Hf Hd H; cbn [all_chunks] in H; [inversion H; constructor|].
  inversion Hf; subst. destruct (random_chunks n [] draws) as [[c rest]|] eqn:E; [|discriminate].
  destruct (random_chunks_cut mn mx n draws c rest Hmn) as [A (used & B & _)]; auto.
  destruct (all_chunks fulls rest) as [cs|] eqn:E2; [|discriminate]. inversion H; subst. constructor; auto. apply IH with rest; auto.
  apply Forall_app in Hd as [_ Hd]. exact Hd.
Qed.

Lemma cut_positive mn mx full cs : (1 <= mn)%Z -> random_cut mn mx full cs -> Forall (fun k => 0 < k)%Z cs /\ zsum cs = full.
Proof.
  intros Hmn (Hs & ms & l & -> & Hm & Hl). split; auto. apply Forall_app. split; [|constructor; [lia|constructor]].
  eapply Forall_impl; [|exact Hm]. cbn. intros; lia.
Qed.

Lemma count_le_sum : forall cs, Forall (fun k => 0 < k)%Z cs -> (Z.of_nat (length cs) <= zsum cs)%Z.
Proof. induction 1; cbn [length zsum fold_right]; [lia|]. unfold zsum in *. lia. Qed.

Theorem all_chunks_enough mn mx : (1 <= mn)%Z -> forall fulls draws, Forall (fun n => 0 < n)%Z fulls ->
  Forall (fun d => mn <= d <= mx)%Z draws -> (zsum fulls <= Z.of_nat (length draws))%Z -> all_chunks fulls draws <> None.
Proof.
  intros Hmn. induction fulls as [|n fulls IH]; intros draws Hf Hd Hl; cbn [all_chunks]; [discriminate|].
  inversion Hf; subst. assert (Ez : zsum (n :: fulls) = (n + zsum fulls)%Z) by reflexivity.
  assert (Hp : Forall (fun d => 0 < d)%Z draws) by (eapply Forall_impl; [|exact Hd]; cbn; intros; lia).
  pose proof (zsum_pos fulls H2). pose proof (count_le_sum draws Hp).
  destruct (random_chunks n [] draws) as [[c rest]|] eqn:E.
  - destruct (random_chunks_cut mn mx n draws c rest Hmn) as [A (used & B & C)]; auto.
    destruct (cut_positive mn mx n c Hmn A) as [P1 P2]. pose proof (count_le_sum c P1). subst draws.
    apply Forall_app in Hd as [_ Hd]. rewrite app_length in Hl. specialize (IH rest H2 Hd ltac:(lia)).
    destruct (all_chunks fulls rest); congruence.
  - exfalso. apply (proj2 (random_chunks_ends n draws Hp)); [lia|auto].
Qed.

(* ---------- random batches ---------- *)

Section Rounds.
Context {A : Type}.
Implicit Types (data rest : list (string * list A)) (b : list A).

Definition total data : nat := list_sum (map (fun q => length (snd q)) data).

Lemma remaining_total data : remaining_chunks data = Z.of_nat (total data).
Proof. unfold remaining_chunks, total. induction data as [|q data IH]; [reflexivity|]. cbn [map zsum fold_right list_sum]. unfold zsum, list_sum in *. rewrite IH. unfold zlen. lia. Qed.

Lemma round_ids : forall data coins b rest cs, one_round data coins = Some (b, rest, cs) -> map fst rest = map fst data.
Proof.
  induction data as [|[i [|s ss]] data IH]; intros coins b rest cs H; cbn [one_round] in H.
  - inversion H; reflexivity.
  - destruct (one_round data coins) as [[[b' r'] c']|] eqn:E; [|discriminate]. inversion H; subst. cbn [map fst]. f_equal. eauto.
  - destruct coins as [|[] coins]; [discriminate| |]; destruct (one_round data coins) as [[[b' r'] c']|] eqn:E; try discriminate; inversion H; subst;
      cbn [map fst]; f_equal; eauto.
Qed.

Lemma round_counts : forall data coins b rest cs, one_round data coins = Some (b, rest, cs) ->
  heads coins = length b + heads cs /\ total data = length b + total rest /\ length cs <= length coins /\
  (0 < total data -> length cs < length coins).
Proof.
  unfold total. induction data as [|[i [|s ss]] data IH]; intros coins b rest cs H; cbn [one_round] in H.
  - inversion H; subst. cbn. lia.
  - destruct (one_round data coins) as [[[b' r'] c']|] eqn:E; [|discriminate]. inversion H; subst. apply IH in E. cbn [map list_sum fold_right snd length] in *.
    unfold list_sum in *. lia.
  - destruct coins as [|[] coins]; [discriminate| |]; destruct (one_round data coins) as [[[b' r'] c']|] eqn:E; try discriminate; inversion H; subst;
      apply IH in E; unfold heads in *; cbn [map list_sum fold_right snd length filter] in *; unfold list_sum in *; lia.
Qed.

Lemma round_none : forall data coins, one_round data coins = None -> heads coins < total data.
Proof.
  unfold total. induction data as [|[i [|s ss]] data IH]; intros coins H; cbn [one_round] in H; [discriminate| |].
  - destruct (one_round data coins) as [[[b' r'] c']|] eqn:E; [discriminate|]. apply IH in E. cbn [map list_sum fold_right snd length]. exact E.
  - destruct coins as [|[] coins]; [cbn; lia| |]; destruct (one_round data coins) as [[[b' r'] c']|] eqn:E; try discriminate;
      apply IH in E; unfold heads in *; cbn [map list_sum fold_right snd length filter] in *; unfold list_sum in *; lia.
Qed.

Lemma rounds_eq fuel data coins : rounds fuel data coins =
  if (0 <? remaining_chunks data)%Z
  then match fuel with
       | O => None
       | S f => match one_round data coins with
                | None => None
                | Some (b, rest, cs) => match rounds f rest cs with None => None | Some bs => Some (match b with [] => bs | _ => b :: bs end) end
                end
       end
  else Some [].
Proof. destruct fuel; reflexivity. Qed.

Lemma total_zero data : total data = 0 -> forall i l, In (i, l) data -> l = [].
Proof.
  unfold total. induction data as [|q data IH]; intros H i l Hin; [destruct Hin|]. cbn [map list_sum fold_right] in H. unfold list_sum in *.
  destruct Hin as [E|Hin]; [|apply (IH ltac:(lia) i l Hin)]. subst q. cbn [snd] in H. destruct l; [auto|cbn in H; lia].
Qed.

Lemma rounds_none : forall fuel data coins, length coins <= fuel -> (rounds fuel data coins = None <-> heads coins < total data).
Proof.
  induction fuel as [|fuel IH]; intros data coins Hf; rewrite rounds_eq, remaining_total.
  - destruct coins; [|cbn in Hf; lia]. destruct (0 <? Z.of_nat (total data))%Z eqn:E; cbn.
    + split; auto. lia.
    + split; [discriminate|]. lia.
  - destruct (0 <? Z.of_nat (total data))%Z eqn:E.
    + destruct (one_round data coins) as [[[b rest] cs]|] eqn:E1.
      * pose proof (round_counts _ _ _ _ _ E1) as (C1 & C2 & C3 & C4). specialize (IH rest cs ltac:(lia)).
        destruct (rounds fuel rest cs) as [bs|]; split; intros H; try discriminate; auto.
        -- assert (Some bs = None) by (apply IH; lia). discriminate.
        -- assert (heads cs < total rest) by now apply IH. lia.
      * split; auto. intros _. now apply round_none.
    + split; [discriminate|]. lia.
Qed.

Theorem batch_loop_ends data coins : batch_loop data coins <> None <-> total data <= heads coins.
Proof. unfold batch_loop. rewrite rounds_none by auto. lia. Qed.

End Rounds.

Section Deal.
Context {A : Type} (who : A -> string).
Implicit Types (data rest : list (string * list A)) (b : list A).

Definition labelled data : Prop := Forall (fun q => Forall (fun a => who a = fst q) (snd q)) data.
Definition picked b (q q' : string * list A) : Prop :=
  fst q' = fst q /\ snd q = filter (fun a => String.eqb (who a) (fst q)) b ++ snd q'.

Lemma filter_none (i : string) b : (forall a, In a b -> who a <> i) -> filter (fun a => String.eqb (who a) i) b = [].
Proof.
  intros H. induction b as [|a b IH]; auto. cbn [filter]. destruct (String.eqb (who a) i) eqn:E.
  - exfalso. apply (H a (or_introl eq_refl)). now apply String.eqb_eq.
  - apply IH. intros x Hx. apply H. now right.
Qed.

Lemma round_picks : forall data coins b rest cs, NoDup (map fst data) -> labelled data -> one_round data coins = Some (b, rest, cs) ->
  labelled rest /\ NoDup (map who b) /\ (forall a, In a b -> In (who a) (map fst data)) /\ Forall2 (picked b) data rest.
Proof.
  assert (Hskip : forall s b i l l', who s = i -> ~ In i (map fst l) -> Forall2 (picked b) l l' -> Forall2 (picked (s :: b)) l l').
  { intros s b i l l' Hw Hn H. induction H as [|q q' l l' [E1 E2] H IH]; constructor.
    - split; auto. cbn [filter]. destruct (String.eqb (who s) (fst q)) eqn:E; auto. apply String.eqb_eq in E. exfalso. apply Hn. left. congruence.
    - apply IH. intros Hi. apply Hn. now right. }
  induction data as [|[i l] data IH]; intros coins b rest cs Hnd Hl H.
  - cbn in H. inversion H; subst. split; [constructor|]. split; [constructor|]. split; [intros a []|constructor].
  - cbn [map fst] in Hnd. inversion Hnd as [|? ? Hni Hnd']; subst. inversion Hl as [|? ? Hl1 Hl2]; subst. cbn [fst snd] in Hl1.
    assert (Hnone : forall b', (forall a, In a b' -> In (who a) (map fst data)) -> filter (fun a => String.eqb (who a) i) b' = []).
    { intros b' Hb. apply filter_none. intros a Ha E. apply Hni. rewrite <- E. auto. }
    cbn [one_round] in H. destruct l as [|s ss].
    + destruct (one_round data coins) as [[[b' r'] c']|] eqn:E; [|discriminate]. inversion H; subst.
      destruct (IH _ _ _ _ Hnd' Hl2 E) as (A1 & A2 & A3 & A4). split; [constructor; auto|]. split; auto. split; [intros a Ha; right; auto|].
      constructor; auto. split; auto. cbn [fst snd]. now rewrite Hnone.
    + inversion Hl1; subst. destruct coins as [|[] coins]; [discriminate| |].
      * destruct (one_round data coins) as [[[b' r'] c']|] eqn:E; [|discriminate]. inversion H; subst.
        destruct (IH _ _ _ _ Hnd' Hl2 E) as (A1 & A2 & A3 & A4). split; [constructor; auto|]. split.
        -- cbn [map]. constructor; auto. intros Hi. apply in_map_iff in Hi as (a & Ha & Hin). apply Hni. rewrite <- Ha. auto.
        -- split.
           ++ intros a [<-|Ha]; [left; auto|right; auto].
           ++ constructor.
              ** split; auto. cbn [fst snd filter]. rewrite String.eqb_refl, Hnone by auto. reflexivity.
              ** eapply Hskip; eauto.
      * destruct (one_round data coins) as [[[b' r'] c']|] eqn:E; [|discriminate]. inversion H; subst.
        destruct (IH _ _ _ _ Hnd' Hl2 E) as (A1 & A2 & A3 & A4). split; [constructor; auto|]. split; auto. split; [intros a Ha; right; auto|].
        constructor; auto. split; auto. cbn [fst snd]. now rewrite Hnone.
Qed.

Theorem rounds_deal : forall fuel data coins steps, NoDup (map fst data) -> labelled data -> rounds fuel data coins = Some steps ->
  deals who data steps.
Proof.
  induction fuel as [|fuel IH]; intros data coins steps Hnd Hl H; rewrite rounds_eq in H; rewrite remaining_total in H.
  - destruct (0 <? Z.of_nat (total data))%Z eqn:E; [discriminate|]. inversion H; subst.
    split; [constructor|]. split; [|intros a []]. intros i l Hin. cbn. symmetry. eapply total_zero; eauto. lia.
  - destruct (0 <? Z.of_nat (total data))%Z eqn:E.
    + destruct (one_round data coins) as [[[b rest] cs]|] eqn:E1; [|discriminate].
      destruct (rounds fuel rest cs) as [bs|] eqn:E2; [|discriminate].
      pose proof (round_ids _ _ _ _ _ E1) as Hids. destruct (round_picks _ _ _ _ _ Hnd Hl E1) as (A1 & A2 & A3 & A4).
      destruct (IH rest cs bs) as (B1 & B2 & B3); auto; [now rewrite Hids|].
      assert (Es : List.concat steps = b ++ List.concat bs) by (inversion H; subst; destruct b; reflexivity).
      split; [|split].
      * inversion H; subst. destruct b as [|a b]; auto. constructor; auto. split; [discriminate|auto].
      * intros i l Hin. rewrite Es, filter_app. destruct (Forall2_in_l _ _ _ _ A4 Hin) as ([i' l'] & Hin' & P1 & P2). cbn [fst snd] in *. subst i'.
        rewrite (B2 i l' Hin'). symmetry. exact P2.
      * intros a Ha. rewrite Es in Ha. apply in_app_iff in Ha as [Ha|Ha].
        -- apply A3 in Ha. apply in_map_iff in Ha as ([i l] & <- & Hin). eauto.
        -- destruct (B3 a Ha) as (l & Hin). assert (Hm : In (who a) (map fst rest)) by (apply in_map_iff; exists (who a, l); auto).
           rewrite Hids in Hm. apply in_map_iff in Hm as ([j l'] & <- & Hin'). eauto.
    + inversion H; subst. split; [constructor|]. split; [|intros a []]. intros i l Hin. cbn. symmetry. eapply total_zero; eauto. lia.
Qed.

End Deal.

Lemma round_map {A B} (g : A -> B) : forall (data : list (string * list A)) coins,
  one_round (map (fun q => (fst q, map g (snd q))) data) coins =
  option_map (fun r => let '(b, rest, cs) := r in (map g b, map (fun q => (fst q, map g (snd q))) rest, cs)) (one_round data coins).
Proof.
  induction data as [|[i [|s ss]] data IH]; intros coins; cbn [map one_round fst snd]; [reflexivity| |].
  - rewrite IH. destruct (one_round data coins) as [[[b r] c]|]; reflexivity.
  - destruct coins as [|[] coins]; [reflexivity| |]; rewrite IH; destruct (one_round data coins) as [[[b r] c]|]; reflexivity.
Qed.

Lemma rounds_map {A B} (g : A -> B) : forall fuel (data : list (string * list A)) coins,
  rounds fuel (map (fun q => (fst q, map g (snd q))) data) coins = option_map (map (map g)) (rounds fuel data coins).
Proof.
  induction fuel as [|fuel IH]; intros data coins; rewrite !rounds_eq.
  - replace (remaining_chunks (map (fun q => (fst q, map g (snd q))) data)) with (remaining_chunks data)
      by (unfold remaining_chunks; rewrite map_map; f_equal; apply map_ext; intros q; cbn [snd]; unfold zlen; now rewrite map_length).
    destruct (0 <? remaining_chunks data)%Z; reflexivity.
  - replace (remaining_chunks (map (fun q => (fst q, map g (snd q))) data)) with (remaining_chunks data)
      by (unfold remaining_chunks; rewrite map_map; f_equal; apply map_ext; intros q; cbn [snd]; unfold zlen; now rewrite map_length).
    destruct (0 <? remaining_chunks data)%Z; [|reflexivity]. rewrite round_map.
    destruct (one_round data coins) as [[[b r] c]|]; [|reflexivity]. cbn [option_map]. rewrite IH.
    destruct (rounds fuel r c); [|reflexivity]. cbn [option_map]. destruct b; reflexivity.
Qed.

(* ---------- the whole run ---------- *)

Section Whole.
Context {V : Type}.
Implicit Types (Ls : list (layer V)).

Lemma take_sections_lengths : forall secs (d : list V), Forall (fun k => 0 < k)%Z secs -> zsum secs = Z.of_nat (length d) ->
  map (@length V) (take_sections secs d) = map Z.to_nat secs.
Proof.
  induction secs as [|k secs IH]; intros d H Hs; [reflexivity|]. inversion H; subst. cbn [take_sections map].
  pose proof (zsum_pos secs H3). assert (Ez : zsum (k :: secs) = (k + zsum secs)%Z) by reflexivity.
  rewrite IH; auto.
  - f_equal. rewrite firstn_length. lia.
  - rewrite skipn_length. lia.
Qed.

Lemma split_sizes (i : string) (d : list V) secs : d <> [] -> Forall (fun k => 0 < k)%Z secs -> zsum secs = Z.of_nat (length d) ->
  exists l, split_single (single_tensor false (mkChunk i true true d 0%Z)) (SList secs) = Ok (map (single_tensor false) l) /\
    complete l /\ data_of l = d /\ Forall (fun r => cid r = i /\ cdat r <> []) l /\ sizes l = map Z.to_nat secs.
Proof.
  intros Hd Hp Hs. destruct (split_at i d (SList secs) Hd (conj Hp Hs)) as (bs & E & Hc & Ht).
  exists (cut_chunks i d bs). split; auto. destruct (cut_complete i d bs Hd Hc) as (A & B & C). split; auto. split; auto. split; auto.
  cbn [tensor_split] in Ht. unfold tensor_split_list in Ht. destruct (_ && _); [|discriminate]. inversion Ht as [Ht'].
  rewrite <- (take_sections_lengths secs d Hp Hs). rewrite Ht'. unfold sizes, cut_chunks. rewrite !map_map. reflexivity.
Qed.

Lemma update_cons (c c' : collector V) y ys : update c (InBatch y :: map InBatch ys) = (c', None) ->
  exists c1, update c [InBatch y] = (c1, None) /\ update c1 (map InBatch ys) = (c', None).
Proof. cbn [update]. destruct (update_one c (InBatch y)) as [c1 [e|]]; [discriminate|]. eauto. Qed.

Lemma stream_loop_ok Ls : forall xs sts c ys sts' c', stack_run Ls sts xs = Ok (ys, sts') -> update c (map InBatch ys) = (c', None) ->
  stream_loop Ls sts c xs = Ok c'.
Proof.
  induction xs as [|x xs IH]; intros sts c ys sts' c' H Hu; cbn [stack_run] in H.
  - inversion H; subst. cbn in Hu. inversion Hu. reflexivity.
  - apply bind_ok in H as ((y & s1) & Hy & H). apply bind_ok in H as ((ys' & s2) & Hys & E). inversion E; subst.
    cbn [map] in Hu. apply update_cons in Hu as (c1 & U1 & U2). cbn [stream_loop]. rewrite Hy. cbn [bind]. rewrite U1. eauto.
Qed.

Lemma stream_loop_run Ls : forall xs sts c c', stream_loop Ls sts c xs = Ok c' -> exists ys sts', stack_run Ls sts xs = Ok (ys, sts').
Proof.
  induction xs as [|x xs IH]; intros sts c c' H; cbn [stream_loop stack_run] in *; [eauto|].
  apply bind_ok in H as ((y & s1) & Hy & H). destruct (update c [InBatch y]) as [c1 [e|]]; [discriminate|].
  destruct (IH _ _ _ H) as (ys & sts' & E). rewrite Hy. cbn [bind]. rewrite E. cbn [bind]. eauto.
Qed.

Lemma all_survive_nil : forall Ls, all_survive Ls (@nil (chunk V)).
Proof. induction Ls as [|L Ls IH]; cbn [all_survive]; split; auto. destruct L; exact IH. Qed.

(** Everything up to the chunks. *)
Lemma front z (items : list (string * list V)) css : items <> [] -> Forall (fun it => snd it <> []) items ->
  Forall2 (fun it cs => Forall (fun k => 0 < k)%Z cs /\ zsum cs = Z.of_nat (length (snd it))) items css ->
  exists xs pieces, (do x <- pad_full_sequence z (map snd items) ["F"; "L"]%string (map fst items); unpad_sequence x) = Ok xs /\
    map (fun s => zlen (sd s)) xs = map (fun it => Z.of_nat (length (snd it))) items /\
    mapM (fun p => split_single (fst p) (SList (snd p))) (zip xs css) = Ok (map (map (single_tensor false)) pieces) /\
    items_ok items pieces /\ Forall2 (fun l cs => sizes l = map Z.to_nat cs) pieces css.
Proof.
  intros Hne Hd Hc.
  destruct (pad_unpad z ["F"; "L"]%string (map fst items) (map snd items)) as (x & Hx & Hu).
  { intros H. cbn in H. intuition discriminate. }
  { cbn. auto. }
  { destruct items; [congruence|discriminate]. }
  { now rewrite !map_length. }
  assert (Exs : forall (its : list (string * list V)), Forall (fun it => snd it <> []) its ->
     map (fun q : string * list V => let f := match snd q with [] => false | _ => true end in
            mkSingle (snd q) (mkMeta [fst q] [f] [f] [Z.of_nat (length (snd q))] None)) (zip (map fst its) (map snd its))
     = map (fun it => single_tensor false (mkChunk (fst it) true true (snd it) 0%Z)) its).
  { intros its H. rewrite zip_map_both, map_map. apply map_ext_in. intros it Hin. rewrite Forall_forall in H. specialize (H it Hin). cbn [fst snd].
    unfold single_tensor. cbn [cdat cid csos ceos]. destruct (snd it); [congruence|reflexivity]. }
  rewrite Exs in Hu by auto.
  assert (G : exists pieces, mapM (fun p => split_single (fst p) (SList (snd p)))
      (zip (map (fun it => single_tensor false (mkChunk (fst it) true true (snd it) 0%Z)) items) css)
      = Ok (map (map (single_tensor false)) pieces) /\ items_ok items pieces /\ Forall2 (fun l cs => sizes l = map Z.to_nat cs) pieces css).
  { clear - Hc Hd. induction Hc as [|it cs items css [Hp Hs] HF IH].
    - exists []. split; [reflexivity|split; constructor].
    - inversion Hd; subst. destruct (IH H2) as (pieces & E & Hok & Hsz).
      destruct (split_sizes (fst it) (snd it) cs H1 Hp Hs) as (l & El & A & B & C & D).
      exists (l :: pieces). split; [|split].
      + unfold mapM in *. cbn [map zip seqM fst snd]. rewrite El. cbn [bind]. cbn [fst snd] in E. rewrite E. reflexivity.
      + constructor; auto.
      + constructor; auto. }
  destruct G as (pieces & Hp & Hok & Hsz). eexists _, pieces. split; [rewrite Hx; cbn [bind]; exact Hu|]. split.
  - rewrite map_map. apply map_ext. intros it. reflexivity.
  - split; auto.
Qed.

Lemma dealt_scheduled (items : list (string * list V)) pieces sched : items_ok items pieces -> deals cid (zip (map fst items) pieces) sched ->
  scheduled items pieces sched.
Proof.
  intros Hit (A & B & C). split; auto. split.
  - assert (Hin : forall it l, In (it, l) (zip items pieces) -> stream_of (fst it) sched = l).
    { intros it l H. unfold stream_of. apply B. clear - H. revert pieces H. induction items as [|a items IH]; intros [|p pieces] H; cbn in *; try destruct H as [].
      - inversion H; subst. auto.
      - right. auto. }
    clear - Hit Hin. induction Hit as [|it l items pieces H HF IH]; constructor.
    + apply Hin. cbn. auto.
    + apply IH. intros. apply Hin. cbn. auto.
  - intros r Hr. destruct (C r Hr) as (l & H). apply in_zip_l in H. exact H.
Qed.

Lemma pieces_labelled (items : list (string * list V)) pieces : items_ok items pieces -> labelled cid (zip (map fst items) pieces).
Proof.
  unfold labelled. induction 1 as [|it l items pieces (_ & _ & H) HF IH]; cbn [map zip]; constructor; auto.
  cbn [fst snd]. eapply Forall_impl; [|exact H]. cbn. tauto.
Qed.

Lemma zip_fst {A B} : forall (l1 : list A) (l2 : list B), length l1 = length l2 -> map fst (zip l1 l2) = l1.
Proof. induction l1 as [|a l1 IH]; intros [|b l2] H; cbn in *; auto; try discriminate. rewrite IH; auto. Qed.

Lemma total_zip {A} : forall (l1 : list string) (l2 : list (list A)), length l1 = length l2 -> total (zip l1 l2) = length (List.concat l2).
Proof.
  unfold total. induction l1 as [|a l1 IH]; intros [|b l2] H; cbn [length] in H; try discriminate; [reflexivity|].
  cbn [zip map List.concat snd list_sum fold_right]. unfold list_sum in *. rewrite IH by lia. now rewrite app_length.
Qed.

Lemma concat_sizes (pieces : list (list (chunk V))) (css : list (list Z)) : Forall2 (fun l cs => sizes l = map Z.to_nat cs) pieces css ->
  length (List.concat pieces) = length (List.concat css).
Proof.
  induction 1 as [|l cs pieces css H HF IH]; [reflexivity|]. cbn [List.concat]. rewrite !app_length, IH. f_equal.
  apply (f_equal (@length nat)) in H. unfold sizes in H. now rewrite !map_length in H.
Qed.

Theorem program_spec Ls z z' (items : list (string * list V)) draws coins css : Forall smooth_layer Ls -> zero_preserving z Ls z' ->
  items <> [] -> NoDup (map fst items) -> Forall (fun it => snd it <> []) items ->
  all_chunks (map (fun it => Z.of_nat (length (snd it))) items) draws = Some css ->
  Forall2 (fun it cs => Forall (fun k => 0 < k)%Z cs /\ zsum cs = Z.of_nat (length (snd it))) items css ->
  Forall (fun cs => lasting (shapes_of Ls) (map Z.to_nat cs)) css ->
  if length (List.concat css) <=? heads coins
  then exists outs, program Ls z items draws coins = Some (Ok outs) /\ mapM (target Ls) (map snd items) = Ok outs
  else program Ls z items draws coins = None.
Proof.
  intros HL Hz Hne Hnd Hd Hc Hcs Hlast.
  destruct (front z items css Hne Hd Hcs) as (xs & pieces & E1 & E2 & E3 & Hok & Hsz).
  unfold program. rewrite E1, E2, Hc, E3.
  assert (Hlen : length items = length pieces) by (eapply Forall2_len; eauto).
  assert (Ez : zip (map fst items) (map (map (single_tensor false)) pieces)
             = map (fun q => (fst q, map (single_tensor false) (snd q))) (zip (map fst items) pieces)).
  { clear. revert pieces. induction items as [|a items IH]; intros [|p pieces]; cbn; auto. now rewrite IH. }
  rewrite Ez. unfold batch_loop. rewrite rounds_map.
  assert (Htot : total (zip (map fst items) pieces) = length (List.concat css)).
  { rewrite total_zip by now rewrite map_length. now apply concat_sizes. }
  pose proof (rounds_none (length coins) (zip (map fst items) pieces) coins (le_n _)) as Hnone. rewrite Htot in Hnone.
  destruct (length (List.concat css) <=? heads coins) eqn:Eh.
  2:{ replace (rounds (length coins) (zip (map fst items) pieces) coins) with (@None (list (list (chunk V)))); [reflexivity|].
      symmetry. apply Hnone. lia. }
  destruct (rounds (length coins) (zip (map fst items) pieces) coins) as [sched|] eqn:Er; [|assert (heads coins < length (List.concat css)) by (now apply Hnone); lia].
  cbn [option_map].
  assert (Hs : scheduled items pieces sched).
  { apply dealt_scheduled; auto. eapply rounds_deal; [| |exact Er].
    - rewrite zip_fst; auto. now rewrite map_length.
    - now apply pieces_labelled. }
  assert (Hsurv : Forall (all_survive Ls) pieces).
  { clear - Hok Hsz Hlast. revert css Hsz Hlast. induction Hok as [|it l items pieces (Hcm & _) HF IH]; intros css Hsz Hlast; inversion Hsz; subst; constructor.
    - inversion Hlast; subst. apply survive_lasting; auto. rewrite H1. auto.
    - inversion Hlast; subst. eauto. }
  assert (HL' : Forall good_layer Ls) by (eapply Forall_impl; [|exact HL]; intros; now apply smooth_good).
  pose proof (sched_good _ _ _ Hok Hs) as Hg.
  assert (Hpad : mapM (pad_stream_tensor z) (map (map (single_tensor false)) sched) = Ok (map (tensor_of z) (map tens_of sched))).
  { apply pad_steps. destruct Hs as (Hg0 & _). rewrite Forall_forall in *. intros g Hgi. apply (Hg0 g Hgi). }
  destruct (stack_succeeds z' Ls z (map tens_of sched)) as (ys & sts & Hrun); auto.
  { now rewrite rows_tens_of. }
  { apply Forall_forall. intros t Hti. apply in_map_iff in Hti as (g & <- & _). reflexivity. }
  { intros i. rewrite rows_tens_of. destruct (sched_stream items pieces sched i Hok Hs) as [(d & _ & Hp & _)|E]; [|rewrite E; apply all_survive_nil].
    rewrite Forall_forall in Hsurv. now apply Hsurv. }
  destruct (online_collected Ls z z' items pieces sched ys) as (c & Hu & Hent); auto.
  { eapply Forall_impl; [|exact Hsurv]. intros l. apply all_survive_through. }
  { unfold stream_through. rewrite Hpad. cbn [bind]. rewrite Hrun. reflexivity. }
  exists (map (fun it => stack_offline Ls (snd it)) items). split.
  - rewrite Hpad. cbn [bind]. rewrite (stream_loop_ok Ls _ _ _ _ _ _ Hrun Hu). cbn [bind]. f_equal.
    unfold mapM. rewrite map_map. fold (mapM (fun it : string * list V => collected c (fst it)) items).
    rewrite (mapM_ok (fun it => collected c (fst it)) (fun it => stack_offline Ls (snd it))); [reflexivity|].
    intros [i d] Hin. unfold collected. cbn [fst snd]. rewrite (Hent i d Hin). reflexivity.
  - unfold mapM. rewrite map_map. fold (mapM (fun it : string * list V => target Ls (snd it)) items).
    rewrite (mapM_ok (fun it => target Ls (snd it)) (fun it => stack_offline Ls (snd it))); [reflexivity|].
    intros it Hin. destruct (Forall2_in_l _ _ _ _ Hok Hin) as (l & Hl & Hcm & <- & _). apply target_offline; auto.
    rewrite Forall_forall in Hsurv. auto.
Qed.

Lemma one_scheduled (items : list (string * list V)) pieces : NoDup (map fst items) -> items_ok items pieces ->
  scheduled items pieces (one_at_a_time pieces).
Proof.
  intros Hnd Hok. unfold one_at_a_time. split; [|split].
    - rewrite Forall_map. apply Forall_forall. intros r _. split; [discriminate|]. repeat constructor. intros [].
    - assert (Ec : List.concat (map (fun r : chunk V => [r]) (List.concat pieces)) = List.concat pieces).
      { induction (List.concat pieces) as [|r l IH]; [reflexivity|]. cbn. now rewrite IH. }
      unfold stream_of. rewrite Ec. clear - Hnd Hok.
      assert (G : forall its ps, items_ok its ps -> forall i, ~ In i (map fst its) -> filter (fun r : chunk V => String.eqb (cid r) i) (List.concat ps) = []).
      { intros its ps H i Hn. apply filter_none. intros r Hr E. apply Hn. rewrite <- E. clear - H Hr.
        induction H as [|it l its ps (_ & _ & H) HF IH]; [destruct Hr|]. cbn [List.concat] in Hr. apply in_app_iff in Hr as [Hr|Hr].
        - rewrite Forall_forall in H. left. symmetry. now apply H.
        - right. auto. }
      assert (Gk : forall its ps, NoDup (map fst its) -> items_ok its ps ->
         Forall2 (fun it l => filter (fun r : chunk V => String.eqb (cid r) (fst it)) (List.concat ps) = l) its ps).
      { intros its ps Hnd' H. induction H as [|it l its ps (A & B & C) HF IH]; constructor.
        - cbn [List.concat]. rewrite filter_app. inversion Hnd'; subst. rewrite (G its ps HF) by auto. rewrite app_nil_r. clear - C.
          induction C as [|r l [E _] C IH]; [reflexivity|]. cbn [filter]. rewrite E, String.eqb_refl. now rewrite IH.
        - cbn [map fst] in Hnd'. inversion Hnd'; subst. specialize (IH H2). clear - IH H1 C.
          assert (K : forall i, In i (map fst its) -> filter (fun r : chunk V => String.eqb (cid r) i) l = []).
          { intros i Hi. apply filter_none. intros r Hr E. rewrite Forall_forall in C. destruct (C r Hr) as [E' _]. apply H1. congruence. }
          cbn [List.concat]. set (cc := List.concat ps) in *. clearbody cc. clear H1 C. revert K. induction IH as [|it2 l2 its ps H IH2 IHF]; intros K; constructor.
          + rewrite filter_app, K by (left; auto). cbn [app]. exact H.
          + apply IHF. intros i Hi. apply K. right; auto. }
      now apply Gk.
    - intros r Hr. assert (Hr' : In r (List.concat pieces)).
      { apply in_concat in Hr as (g & Hg & Hr). apply in_map_iff in Hg as (q & <- & Hq). destruct Hr as [<-|[]]. exact Hq. }
      clear - Hok Hr'. induction Hok as [|it l its ps (_ & _ & H) HF IH]; [destruct Hr'|]. cbn [List.concat] in Hr'. apply in_app_iff in Hr' as [Hr|Hr].
      + rewrite Forall_forall in H. left. symmetry. now apply H.
      + right. auto.
Qed.

(** Chunks that vanish: with one chunk per batch the run fails. *)
Theorem single_steps_fail Ls z z' (items : list (string * list V)) pieces ys : Forall good_layer Ls -> zero_preserving z Ls z' ->
  NoDup (map fst items) -> items_ok items pieces ->
  stream_through Ls z (map (map (single_tensor false)) (one_at_a_time pieces)) = Ok ys -> Forall (all_survive Ls) pieces.
Proof.
  intros HL Hz Hnd Hok H.
  pose proof (one_scheduled items pieces Hnd Hok) as Hs.
  pose proof (sched_good _ _ _ Hok Hs) as Hg.
  unfold stream_through in H. rewrite pad_steps in H by (destruct Hs as (Hg0 & _); rewrite Forall_forall in *; intros g Hgi; apply (Hg0 g Hgi)).
  cbn [bind] in H. apply bind_ok in H as ((ys' & sts) & Hrun & _).
  pose proof (stack_single z' Ls z (map tens_of (one_at_a_time pieces)) ys' sts HL Hz) as G. rewrite rows_tens_of in G.
  assert (Hall : forall i, all_survive Ls (stream_of i (one_at_a_time pieces))).
  { apply G; auto.
    - apply Forall_forall. intros t Hti. apply in_map_iff in Hti as (g & <- & _). reflexivity.
    - apply Forall_forall. intros t Hti. apply in_map_iff in Hti as (g & <- & Hgi). unfold one_at_a_time in Hgi. apply in_map_iff in Hgi as (r & <- & _).
      exists r. reflexivity.
    - intros i. destruct (sched_stream items pieces _ i Hok Hs) as [(d & _ & _ & _ & _ & Hx)|E]; [|rewrite E; constructor].
      eapply Forall_impl; [|exact Hx]. cbn. tauto. }
  destruct Hs as (_ & HF & _). clear - HF Hall. induction HF as [|it l its ps H HF IH]; constructor; auto. rewrite <- H. apply Hall.
Qed.

Theorem every_schedule Ls z z' (items : list (string * list V)) pieces : Forall smooth_layer Ls -> zero_preserving z Ls z' ->
  NoDup (map fst items) -> items_ok items pieces ->
  ((forall sched, scheduled items pieces sched -> exists ys, stream_through Ls z (map (map (single_tensor false)) sched) = Ok ys) <->
   Forall (fun l => lasting (shapes_of Ls) (map (fun r => length (cdat r)) l)) pieces).
Proof.
  intros HL Hz Hnd Hok.
  assert (HL' : Forall good_layer Ls) by (eapply Forall_impl; [|exact HL]; intros; now apply smooth_good).
  assert (Hc : Forall complete pieces).
  { clear - Hok. induction Hok as [|it l items pieces (A & _) HF IH]; constructor; auto. }
  assert (E : Forall (fun l => lasting (shapes_of Ls) (map (fun r => length (cdat r)) l)) pieces <-> Forall (all_survive Ls) pieces).
  { rewrite !Forall_forall in *. split; intros H l Hl; apply (survive_lasting Ls l (Hc l Hl)); exact (H l Hl). }
  rewrite E. split.
  - intros H. destruct (H _ (one_scheduled items pieces Hnd Hok)) as (ys & Hy). eapply single_steps_fail; eauto.
  - intros Hsurv sched Hs. pose proof (sched_good _ _ _ Hok Hs) as Hg.
    destruct (stack_succeeds z' Ls z (map tens_of sched)) as (ys & sts & Hrun); auto.
    { now rewrite rows_tens_of. }
    { apply Forall_forall. intros t Hti. apply in_map_iff in Hti as (g & <- & _). reflexivity. }
    { intros i. rewrite rows_tens_of. destruct (sched_stream items pieces sched i Hok Hs) as [(d & _ & Hp & _)|E']; [|rewrite E'; apply all_survive_nil].
      rewrite Forall_forall in Hsurv. now apply Hsurv. }
    exists ys. unfold stream_through. rewrite pad_steps by (destruct Hs as (Hg0 & _); rewrite Forall_forall in *; intros g Hgi; apply (Hg0 g Hgi)).
    cbn [bind]. rewrite Hrun. reflexivity.
Qed.

Lemma rounds_single {A} (i : string) : forall l : list A, rounds (length l) [(i, l)] (repeat true (length l)) = Some (map (fun a => [a]) l).
Proof.
  assert (G : forall (l : list A) n, length l <= n -> rounds n [(i, l)] (repeat true (length l)) = Some (map (fun a => [a]) l)).
  { induction l as [|a l IH]; intros n Hn; rewrite rounds_eq; unfold remaining_chunks; cbn [map snd zsum fold_right]; [reflexivity|].
    replace (0 <? zlen (a :: l) + 0)%Z with true by (unfold zlen; cbn [length]; lia). destruct n as [|n]; [cbn in Hn; lia|].
    cbn [length repeat one_round]. rewrite IH by (cbn in Hn; lia). reflexivity. }
  intros l. now apply G.
Qed.

(** One sequence, one chunk per batch: the run fails if a chunk vanishes. *)
Theorem vanishing_fails Ls z z' i (d : list V) draws cs : Forall smooth_layer Ls -> zero_preserving z Ls z' -> d <> [] ->
  all_chunks [Z.of_nat (length d)] draws = Some [cs] -> Forall (fun k => 0 < k)%Z cs -> zsum cs = Z.of_nat (length d) ->
  ~ lasting (shapes_of Ls) (map Z.to_nat cs) ->
  exists e, program Ls z [(i, d)] draws (repeat true (length cs)) = Some (Err e).
Proof.
  intros HL Hz Hd Hc Hp Hs Hnl.
  assert (HL' : Forall good_layer Ls) by (eapply Forall_impl; [|exact HL]; intros; now apply smooth_good).
  destruct (front z [(i, d)] [cs]) as (xs & pieces & E1 & E2 & E3 & Hok & Hsz); [discriminate|repeat constructor; auto|constructor; [auto|constructor]|].
  unfold program. rewrite E1, E2. cbn [map snd]. rewrite Hc, E3. cbn [fst].
  inversion Hsz as [|l ? ? ? Hl Hnil]; subst. inversion Hnil; subst. cbn [map zip].
  assert (Elen : length cs = length (map (single_tensor false) l)).
  { apply (f_equal (@length nat)) in Hl. unfold sizes in Hl. rewrite !map_length in *. auto. }
  unfold batch_loop. rewrite repeat_length, Elen, rounds_single.
  assert (Eo : map (fun a => [a]) (map (single_tensor false) l) = map (map (single_tensor false)) (one_at_a_time [l])).
  { unfold one_at_a_time. cbn [List.concat]. rewrite app_nil_r, !map_map. reflexivity. }
  rewrite Eo. set (r := bind _ _). destruct r as [outs|e] eqn:Er; [|eauto]. exfalso. unfold r in Er. clear r.
  apply bind_ok in Er as (bs & Hb & Er). apply bind_ok in Er as (c & Hst & _). apply stream_loop_run in Hst as (ys & sts & Hrun).
  assert (Hsv : Forall (all_survive Ls) [l]).
  { eapply (single_steps_fail Ls z z' [(i, d)] [l] ys); eauto.
    - cbn. repeat constructor. intros [].
    - unfold stream_through. rewrite Hb. cbn [bind]. rewrite Hrun. reflexivity. }
  inversion Hsv; subst. inversion Hok as [|? ? ? ? (Hcm & _) _]; subst. apply Hnl. rewrite <- Hl. apply survive_lasting; auto.
Qed.

Theorem program_random Ls z z' (items : list (string * list V)) mn mx draws coins css : Forall smooth_layer Ls -> zero_preserving z Ls z' ->
  items <> [] -> NoDup (map fst items) -> Forall (fun it => snd it <> []) items ->
  (1 <= mn)%Z -> Forall (fun d => mn <= d <= mx)%Z draws ->
  all_chunks (map (fun it => Z.of_nat (length (snd it))) items) draws = Some css ->
  Forall (fun cs => lasting (shapes_of Ls) (map Z.to_nat cs)) css ->
  if length (List.concat css) <=? heads coins
  then exists outs, program Ls z items draws coins = Some (Ok outs) /\ mapM (target Ls) (map snd items) = Ok outs
  else program Ls z items draws coins = None.
Proof.
  intros HL Hz Hne Hnd Hd Hmn Hdr Hc Hlast. apply (program_spec Ls z z'); auto.
  assert (Hf : Forall (fun n => 0 < n)%Z (map (fun it : string * list V => Z.of_nat (length (snd it))) items)).
  { rewrite Forall_map. eapply Forall_impl; [|exact Hd]. cbn. intros [i d] H. cbn [snd] in *. destruct d; [congruence|cbn; lia]. }
  pose proof (all_chunks_cut mn mx Hmn _ _ _ Hf Hdr Hc) as H2. clear - H2 Hmn. revert css H2.
  induction items as [|it items IH]; intros css H2; inversion H2; subst; constructor; auto. eapply cut_positive; eauto.
Qed.

Fixpoint wide_b (shs : list shape) (a m e : nat) : bool :=
  (1 <=? a) && (1 <=? m) && (1 <=? e) &&
  match shs with [] => true | (k, s, p) :: t => (k <=? a + p) && wide_b t ((a + p - k) / s + 1) (m / s) ((e + p) / s) end.

Lemma wide_b_wide : forall shs a m e, wide_b shs a m e = true -> wide shs a m e.
Proof.
  induction shs as [|[[k s] p] shs IH]; intros a m e H; cbn [wide wide_b] in *; repeat rewrite andb_true_iff in H.
  - repeat split; try lia.
  - destruct H as [H [H1 H2]]. apply IH in H2. split; [lia|]. split; [lia|]. split; [lia|]. split; [lia|exact H2].
Qed.

Lemma wav2letter_lasting full cs : (32000 < full)%Z -> random_cut 16000 32000 full cs -> (115 <= last cs 0)%Z ->
  lasting wav2letter_shapes (map Z.to_nat cs).
Proof.
  intros Hf (Hs & ms & l & -> & Hm & Hl) He. rewrite last_last in He.
  apply wide_lasting with (Z.to_nat 16000) (Z.to_nat 16000) 115.
  - apply wide_b_wide. vm_compute. reflexivity.
  - destruct ms as [|f ms]; [cbn in Hs; unfold zsum in Hs; cbn in Hs; lia|]. inversion Hm; subst.
    exists (Z.to_nat f), (map Z.to_nat ms), (Z.to_nat l). split; [cbn [app map]; rewrite map_app; reflexivity|]. split; [lia|]. split; [|lia].
    rewrite Forall_map. eapply Forall_impl; [|exact H2]. cbn. intros; lia.
Qed.

Theorem wav2letter_run Ls z z' (items : list (string * list V)) draws coins css : Forall smooth_layer Ls ->
  shapes_of Ls = wav2letter_shapes -> zero_preserving z Ls z' -> items <> [] -> NoDup (map fst items) ->
  Forall (fun it => 32000 < Z.of_nat (length (snd it)))%Z items -> Forall (fun d => 16000 <= d <= 32000)%Z draws ->
  all_chunks (map (fun it => Z.of_nat (length (snd it))) items) draws = Some css ->
  Forall (fun cs => 115 <= last cs 0)%Z css -> length (List.concat css) <= heads coins ->
  exists outs, program Ls z items draws coins = Some (Ok outs) /\ mapM (target Ls) (map snd items) = Ok outs.
Proof.
  intros HL Hsh Hz Hne Hnd Hlen Hdr Hc Hlast Hh.
  assert (Hd : Forall (fun it : string * list V => snd it <> []) items).
  { eapply Forall_impl; [|exact Hlen]. cbn. intros [i d] H E. cbn [snd] in *. subst. cbn in H. lia. }
  pose proof (program_random Ls z z' items 16000 32000 draws coins css HL Hz Hne Hnd Hd ltac:(lia) Hdr Hc) as G.
  replace (length (List.concat css) <=? heads coins) with true in G by lia. apply G. rewrite Hsh.
  assert (Hf : Forall (fun n => 0 < n)%Z (map (fun it : string * list V => Z.of_nat (length (snd it))) items)).
  { rewrite Forall_map. eapply Forall_impl; [|exact Hlen]. cbn. intros; lia. }
  pose proof (all_chunks_cut 16000 32000 ltac:(lia) _ _ _ Hf Hdr Hc) as H2. clear - H2 Hlen Hlast. revert css H2 Hlast.
  induction items as [|it items IH]; intros css H2 Hlast; inversion H2; subst; constructor; inversion Hlast; inversion Hlen; subst; auto.
  eapply wav2letter_lasting; eauto.
Qed.

Lemma wav2letter_short : ~ lasting wav2letter_shapes (map Z.to_nat [16000; 16000; 16000; 16000; 16045; 1]%Z).
Proof.
  intros [_ H]. cbn [wav2letter_shapes app lasting] in H. destruct H as [H _]. rewrite Forall_forall in H.
  specialize (H 0). assert (In 0 (out_sizes (250, 160, 45) (map Z.to_nat [16000; 16000; 16000; 16000; 16045; 1]%Z))).
  { vm_compute. auto 20. }
  specialize (H H0). lia.
Qed.

Theorem wav2letter_fails Ls z z' i (d : list V) : Forall smooth_layer Ls -> shapes_of Ls = wav2letter_shapes -> zero_preserving z Ls z' ->
  Z.of_nat (length d) = 80046%Z ->
  exists e, program Ls z [(i, d)] [16000; 16000; 16000; 16000; 16045; 16000]%Z (repeat true 6) = Some (Err e).
Proof.
  intros HL Hsh Hz Hd. apply (vanishing_fails Ls z z' i d _ [16000; 16000; 16000; 16000; 16045; 1]%Z); auto.
  - intros ->. discriminate.
  - rewrite Hd. vm_compute. reflexivity.
  - repeat (constructor; [lia|]). constructor.
  - rewrite Hsh. apply wav2letter_short.
Qed.

End Whole.

(** Proofs about align_to. *)

From Coq Require Import String List ZArith Bool Lia.
From Coq Require Import ZifyBool.
From Verif Require Import Py Meta MetaSpec Named NamedSpec NamedProofs NamedIndexProofs PadTensorProofs UnpadTensorProofs AlignTo AlignToSpec.
Import ListNotations.
Open Scope Z_scope.

Section AlignToProofs.
Context {V : Type}.
Notation stensor := (@stensor V).

Lemma names_index_absent (l : list dname) n : ~ In n l -> names_index n l = Err ValueError.
Proof.
  induction l as [|a l IH]; intros H; cbn [names_index]; [reflexivity|]. destruct (dname_eqb a n) eqn:E.
  - exfalso. apply H. left. destruct a, n; try discriminate; [|reflexivity]. cbn in E. apply String.eqb_eq in E. now subst.
  - rewrite IH; [reflexivity|]. intros K. apply H. now right.
Qed.

Lemma mem_false n l : ~ In n l -> names_mem n l = false.
Proof. intros H. apply not_true_is_false. intros E. now apply names_mem_In in E. Qed.

Theorem align_to_ok (x : stensor) target : fully_named (names x) -> fully_named target -> incl (names x) target ->
  exists y, align_to x target = Ok y /\ realigned x target y.
Proof.
  intros (D1 & N1) (D2 & N2) HI. unfold align_to. rewrite (mem_false _ _ N2), (mem_false _ _ N1).
  assert (E : forallb (fun n => names_mem n target) (names x) = true).
  { apply forallb_forall. intros n Hn. apply names_mem_In. now apply HI. }
  rewrite E. cbn [negb]. rewrite (proj2 (names_dup_false target) D2). eexists. split; [reflexivity|]. constructor; cbn [names smeta tn shp at_].
  - reflexivity.
  - reflexivity.
  - apply map_length.
  - intros k d s Hk Hd. erewrite nth_error_nth by (rewrite nth_error_map, Hk; cbn [option_map]; rewrite (names_index_at _ _ _ D1 Hd); reflexivity). reflexivity.
  - intros k s Hk Hs. erewrite nth_error_nth by (rewrite nth_error_map, Hk; cbn [option_map]; rewrite (names_index_absent _ _ Hs); reflexivity). reflexivity.
  - intros ix jx Lx Lj HP. f_equal. apply (nth_ext _ _ 0 0); [rewrite map_length; lia|]. intros d Hd. rewrite map_length in Hd.
    destruct (nth_error (names x) d) as [n|] eqn:En; [|apply nth_error_None in En; lia].
    pose proof (HI n (nth_error_In _ _ En)) as Ht. apply In_nth_error in Ht. destruct Ht as (k & Hk).
    destruct n as [s|]; [|exfalso; apply N1; eapply nth_error_In; exact En].
    erewrite nth_error_nth by (rewrite nth_error_map, En; cbn [option_map]; rewrite (names_index_at _ _ _ D2 Hk); reflexivity).
    now apply (HP k d s).
Qed.

Theorem align_to_refused (x : stensor) target : ~ In None target -> In None (names x) \/ ~ incl (names x) target \/ ~ names_distinct target ->
  align_to x target = Err RuntimeError.
Proof.
  intros N H. unfold align_to. rewrite (mem_false _ _ N). destruct (names_mem None (names x)) eqn:E1; [reflexivity|].
  destruct (forallb (fun n => names_mem n target) (names x)) eqn:E2; [|reflexivity]. cbn [negb].
  destruct (names_dup target) eqn:E3; [reflexivity|]. exfalso. destruct H as [H|[H|H]].
  - apply names_mem_In in H. congruence.
  - apply H. intros n Hn. rewrite forallb_forall in E2. now apply names_mem_In, E2.
  - apply H. now apply names_dup_false.
Qed.

Lemma align_to_inv (x : stensor) target y : names_distinct (names x) -> align_to x target = Ok y ->
  fully_named (names x) /\ fully_named target /\ incl (names x) target /\ realigned x target y.
Proof.
  intros D E. pose proof E as E0. unfold align_to in E.
  destruct (names_mem None target) eqn:G1; [discriminate|]. destruct (names_mem None (names x)) eqn:G2; [discriminate|].
  destruct (forallb (fun n => names_mem n target) (names x)) eqn:G3; [|discriminate]. cbn [negb] in E.
  destruct (names_dup target) eqn:G4; [discriminate|]. clear E.
  assert (F1 : fully_named (names x)) by (split; [exact D|]; intros H; apply names_mem_In in H; congruence).
  assert (F2 : fully_named target) by (split; [now apply names_dup_false|]; intros H; apply names_mem_In in H; congruence).
  assert (F3 : incl (names x) target) by (intros n Hn; rewrite forallb_forall in G3; now apply names_mem_In, G3).
  split; [exact F1|]. split; [exact F2|]. split; [exact F3|]. destruct (align_to_ok x target F1 F2 F3) as (y' & E' & H). rewrite E0 in E'. injection E' as <-. exact H.
Qed.

Lemma at_lt {X} (l : list X) k a : nth_error l k = Some a -> (k < length l)%nat.
Proof. intros H. apply nth_error_Some. congruence. Qed.

Lemma nth_error_nthZ (l : list Z) k n : nth_error l k = Some n <-> (k < length l)%nat /\ nth k l 0 = n.
Proof.
  split.
  - intros H. split; [apply nth_error_Some; congruence|now apply nth_error_nth].
  - intros (H & <-). now apply nth_error_nth'.
Qed.

Lemma realigned_sizes (x : stensor) target y : length (names x) = length (shp (tn x)) -> Forall (fun n => 0 <= n) (shp (tn x)) ->
  ~ In None target -> realigned x target y -> Forall (fun n => 0 <= n) (shp (tn y)).
Proof.
  intros R S0 N H. rewrite Forall_forall. intros n Hn. apply In_nth_error in Hn. destruct Hn as (k & Hk). apply nth_error_nthZ in Hk. destruct Hk as (Lk & <-).
  rewrite (ra_rank _ _ _ H) in Lk. destruct (nth_error target k) as [[s|]|] eqn:Et; [| |exfalso; apply nth_error_None in Et; apply (Nat.lt_irrefl k); eapply Nat.lt_le_trans; eassumption].
  - destruct (in_dec (fun a b : dname => ltac:(decide equality; apply string_dec)) (Some s) (names x)) as [I|I].
    + apply In_nth_error in I. destruct I as (d & Hd). rewrite (ra_old _ _ _ H k d s Et Hd). rewrite Forall_forall in S0. apply S0. apply nth_In.
      rewrite <- R. apply nth_error_Some. congruence.
    + rewrite (ra_new _ _ _ H k s Et I). lia.
  - exfalso. apply N. eapply nth_error_In. exact Et.
Qed.

Theorem align_to_stream (x : stensor) bd ld c rs T target y : stream_ok x bd ld c rs T -> align_to x target = Ok y ->
  exists bd' ld', nth_error target bd' = Some (Some "B"%string) /\ nth_error target ld' = Some (Some "L"%string) /\ stream_ok y bd' ld' c rs T.
Proof.
  intros SO E. destruct SO as [S1 S2 S3 S4 S5 S6 S7 S8 S9 S10]. destruct (align_to_inv x target y S2 E) as (F1 & F2 & F3 & H).
  pose proof (F3 _ (nth_error_In _ _ S4)) as IB. pose proof (F3 _ (nth_error_In _ _ S5)) as IL.
  apply In_nth_error in IB. apply In_nth_error in IL. destruct IB as (b & Hb), IL as (l & Hl). exists b, l. split; [exact Hb|]. split; [exact Hl|].
  assert (Lb : (b < length target)%nat) by exact (at_lt _ _ _ Hb). assert (Ll : (l < length target)%nat) by exact (at_lt _ _ _ Hl).
  pose proof (ra_names _ _ _ H) as EN. pose proof (ra_rank _ _ _ H) as ER. constructor.
  - now rewrite EN.
  - rewrite EN. apply F2.
  - exact (realigned_sizes x target y S1 S3 (proj2 F2) H).
  - now rewrite EN.
  - now rewrite EN.
  - apply nth_error_nthZ. split; [rewrite ER; assumption|]. rewrite (ra_old _ _ _ H b bd _ Hb S4). now apply nth_error_nthZ in S6.
  - apply nth_error_nthZ. split; [rewrite ER; assumption|]. rewrite (ra_old _ _ _ H l ld _ Hl S5). now apply nth_error_nthZ in S7.
  - now rewrite (ra_meta _ _ _ H).
  - exact S9.
  - exact S10.
Qed.

(** A chunk without batch dimension gets one. *)
Theorem align_to_single (x : stensor) ld c r T target y : length (names x) = length (shp (tn x)) -> names_distinct (names x) ->
  Forall (fun n => 0 <= n) (shp (tn x)) -> ~ In (Some "B"%string) (names x) -> nth_error (names x) ld = Some (Some "L"%string) ->
  nth_error (shp (tn x)) ld = Some T -> smeta x = of_rows c [r] -> 0 <= rlen r <= T ->
  In (Some "B"%string) target -> align_to x target = Ok y ->
  exists bd' ld', stream_ok y bd' ld' c [r] T.
Proof.
  intros S1 S2 S3 S4 S5 S7 S8 S9 IB E. destruct (align_to_inv x target y S2 E) as (F1 & F2 & F3 & H).
  pose proof (F3 _ (nth_error_In _ _ S5)) as IL. apply In_nth_error in IB. apply In_nth_error in IL. destruct IB as (b & Hb), IL as (l & Hl). exists b, l.
  assert (Lb : (b < length target)%nat) by exact (at_lt _ _ _ Hb). assert (Ll : (l < length target)%nat) by exact (at_lt _ _ _ Hl).
  pose proof (ra_names _ _ _ H) as EN. pose proof (ra_rank _ _ _ H) as ER. constructor.
  - now rewrite EN.
  - rewrite EN. apply F2.
  - exact (realigned_sizes x target y S1 S3 (proj2 F2) H).
  - now rewrite EN.
  - now rewrite EN.
  - apply nth_error_nthZ. split; [rewrite ER; assumption|]. now rewrite (ra_new _ _ _ H b _ Hb S4).
  - apply nth_error_nthZ. split; [rewrite ER; assumption|]. rewrite (ra_old _ _ _ H l ld _ Hl S5). now apply nth_error_nthZ in S7.
  - now rewrite (ra_meta _ _ _ H).
  - constructor; [lia|constructor].
  - constructor; [lia|constructor].
Qed.

Theorem align_to_back (x : stensor) target y : length (names x) = length (shp (tn x)) -> names_distinct (names x) -> incl target (names x) -> align_to x target = Ok y ->
  exists x', align_to y (names x) = Ok x' /\ names x' = names x /\ smeta x' = smeta x /\ shp (tn x') = shp (tn x) /\
    (forall ix, length ix = length (shp (tn x)) -> at_ (tn x') ix = at_ (tn x) ix).
Proof.
  intros R D I E. destruct (align_to_inv x target y D E) as (F1 & F2 & F3 & H). pose proof (ra_names _ _ _ H) as EN.
  destruct (align_to_ok y (names x)) as (x' & E' & H').
  { now rewrite EN. } { exact F1. } { now rewrite EN. }
  exists x'. split; [exact E'|]. split; [apply (ra_names _ _ _ H')|]. split; [now rewrite (ra_meta _ _ _ H'), (ra_meta _ _ _ H)|].
  assert (NM : forall d, (d < length (names x))%nat -> exists s k, nth_error (names x) d = Some (Some s) /\ nth_error target k = Some (Some s)).
  { intros d Hd. destruct (nth_error (names x) d) as [[s|]|] eqn:Ed; [| |apply nth_error_None in Ed; lia].
    - pose proof (F3 _ (nth_error_In _ _ Ed)) as K. apply In_nth_error in K. destruct K as (k & Hk). now exists s, k.
    - exfalso. apply (proj2 F1). eapply nth_error_In. exact Ed. }
  split.
  - apply (nth_ext _ _ 0 0); [rewrite (ra_rank _ _ _ H'); exact R|]. intros d Hd. rewrite (ra_rank _ _ _ H') in Hd. destruct (NM d Hd) as (s & k & Hs & Hk).
    rewrite <- (ra_old _ _ _ H k d s Hk Hs). apply (ra_old _ _ _ H' d k s Hs). now rewrite EN.
  - intros ix Lx. set (jx := map (fun n => match names_index n (names x) with Ok d => nth d ix 0 | Err _ => 0 end) target).
    assert (Lj : length jx = length target) by apply map_length.
    assert (SP : same_place target (names x) jx ix).
    { intros k d s Hk Hd. unfold jx. erewrite nth_error_nth by (rewrite nth_error_map, Hk; cbn [option_map]; rewrite (names_index_at _ _ _ D Hd); reflexivity). reflexivity. }
    rewrite (ra_data _ _ _ H' ix jx ltac:(lia) ltac:(now rewrite EN)).
    + apply (ra_data _ _ _ H jx ix Lj ltac:(lia) SP).
    + rewrite EN. intros d k s Hd Hk. symmetry. now apply (SP k d s).
Qed.

End AlignToProofs.

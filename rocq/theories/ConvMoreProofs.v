(** Facts about single calls of a streaming convolution on arbitrary batches, restarts, and the plain module. *)

From Coq Require Import String List ZArith Bool Lia.
From Coq Require Import ZifyBool.
From Verif Require Import Py Meta MetaSpec MetaProofs MetaLenProofs MetaSplitProofs MetaBatchProofs Pad Conv ConvSpec ConvProofs ConvRunProofs ConvStreamProofs.
Import ListNotations.
Open Scope nat_scope.

Section ConvMoreProofs.
Context {V : Type}.
Implicit Types (c : conv_cfg V) (st : buffers V) (x : batch V).

(* ---------- bounded buffers, any input ---------- *)

Definition bounded c st : Prop := forall i b, st i = Some b -> length b <= kspan c - 1.

Lemma bind_ok {A B} (r : res A) (f : A -> res B) b : bind r f = Ok b -> exists a, r = Ok a /\ f a = Ok b.
Proof. destruct r; simpl; [eauto|discriminate]. Qed.

Lemma mapM_Forall2 {A B} (f : A -> res B) : forall l r, mapM f l = Ok r -> Forall2 (fun a b => f a = Ok b) l r.
Proof.
  unfold mapM. induction l as [|a l IH]; intros r H; simpl in *; [inversion H; constructor|].
  apply bind_ok in H as (b & Hb & H). apply bind_ok in H as (bs & Hbs & H). inversion H; subst. constructor; auto.
Qed.

Lemma Forall2_in_r {A B} (P : A -> B -> Prop) l r : Forall2 P l r -> forall b, In b r -> exists a, In a l /\ P a b.
Proof.
  induction 1; intros b Hb; [destruct Hb|]. destruct Hb as [->|Hb]; [exists x; simpl; auto|].
  destruct (IHForall2 b Hb) as (a & Ha & HP). exists a. simpl; auto.
Qed.

Lemma in_zip_l {A B} : forall (l1 : list A) (l2 : list B) a b, In (a, b) (zip l1 l2) -> In a l1.
Proof. induction l1; intros [|y l2] p q H; simpl in *; try tauto. destruct H as [E|H]; [inversion E; auto|eauto]. Qed.

Lemma in_zip_map {A B} (f : A -> B) : forall l b a, In (b, a) (zip (map f l) l) -> b = f a /\ In a l.
Proof. induction l; intros b q H; simpl in *; [tauto|]. destruct H as [E|H]; [inversion E; auto|]. apply IHl in H as [-> H]. auto. Qed.

Lemma temp_buffer_bounded c m rows tmp : valid_cfg c -> Forall (fun n => 0 <= n)%Z (lens m) ->
  temp_buffer c m (map (output_length c) (lens m)) rows = Ok tmp -> forall i b, In (i, b) tmp -> length b <= kspan c - 1.
Proof.
  intros Hv Hnn H i b Hin. unfold temp_buffer in H. destruct (_ && _); [|inversion H; subst; destruct Hin].
  apply bind_ok in H as (bs & Hbs & H). inversion H; subst. apply mapM_Forall2 in Hbs.
  apply in_concat in Hin as (l & Hl & Hin). destruct (Forall2_in_r _ _ _ Hbs l Hl) as ([[[[o n] j] e] r] & Hq & HP).
  apply in_zip_l in Hq. apply in_zip_l in Hq. apply in_zip_l in Hq. apply in_zip_map in Hq as [-> Hn].
  destruct e; [inversion HP; subst; destruct Hin|]. apply bind_ok in HP as (b' & Hb & HP). inversion HP; subst.
  destruct Hin as [E|[]]. inversion E; subst. rewrite Forall_forall in Hnn. specialize (Hnn n Hn).
  unfold row_slice, tensor_slice in Hb. simpl in Hb.
  change (list_slice r (mkSlice (Some (output_length c n * Z.of_nat (strd c))%Z) (Some n) None) = Ok b) in Hb.
  assert (Ho : (0 <= output_length c n)%Z) by (unfold output_length; lia).
  pose proof (sub_list_skip r (output_length c n * Z.of_nat (strd c)) n ltac:(nia) ltac:(lia)) as G. unfold sub_list in G.
  rewrite G in Hb. inversion Hb; subst. rewrite skipn_length, firstn_length.
  replace n with (Z.of_nat (Z.to_nat n)) by lia. rewrite output_length_nwin by auto.
  set (m0 := Z.to_nat n). rewrite Nat2Z.id. rewrite <- Nat2Z.inj_mul, Nat2Z.id.
  destruct (Nat.lt_ge_cases (m0 - nwin c m0 * strd c) (kspan c)) as [Hlt|Hge]; [destruct Hv; lia|].
  exfalso. assert (nwin c m0 < nwin c m0); [|lia]. apply nwin_lt; auto.
  assert (1 <= kspan c) by (unfold kspan; apply Nat.le_add_l). lia.
Qed.

Lemma Forall_map_nonneg {A} (f : A -> Z) l : (forall a, In a l -> 0 <= f a)%Z -> Forall (fun n => 0 <= n)%Z (map f l).
Proof. intros H. apply Forall_forall. intros n Hn. apply in_map_iff in Hn as (a & <- & Ha). auto. Qed.

Lemma pre_hook_nonneg c st x x1 : Forall (fun n => 0 <= n)%Z (lens (bm x)) -> pre_hook c st x = Ok x1 ->
  Forall (fun n => 0 <= n)%Z (lens (bm x1)).
Proof.
  intros Hnn H. unfold pre_hook in H. destruct (_ && _); [|inversion H; subst; auto].
  destruct (map buffer_len (buffer_data st (bm x))) as [|r0 bl]; [discriminate|].
  destruct (forallb _ _).
  - apply bind_ok in H as (bs & _ & H). unfold cat_front in H. destruct (Nat.eqb _ _); [|discriminate]. inversion H; subst.
    cbn. apply Forall_map_nonneg. intros n Hn. rewrite Forall_forall in Hnn. specialize (Hnn n Hn). lia.
  - apply bind_ok in H as (xs & _ & H). unfold pad_stream_tensor in H. apply bind_ok in H as (m & _ & H).
    unfold pad_chunks in H. cbn [existsb String.eqb Ascii.eqb Bool.eqb orb negb] in H.
    apply bind_ok in H as ((w & rows) & _ & H). apply bind_ok in H as (m2 & Hm & H). inversion H; subst. cbn [bm].
    unfold make_meta in Hm. destruct (_ && _); [|discriminate]. inversion Hm; subst. cbn [lens].
    apply Forall_map_nonneg. intros a _. unfold zlen. lia.
Qed.

Lemma add_where_nonneg fl p l : (0 <= p)%Z -> Forall (fun n => 0 <= n)%Z l -> Forall (fun n => 0 <= n)%Z (add_where fl p l).
Proof.
  intros Hp H. unfold add_where. apply Forall_map_nonneg. intros [b n] Hn.
  assert (In n l). { clear - Hn. revert l Hn. induction fl; intros [|y l] H; simpl in *; try tauto. destruct H as [E|H]; [inversion E; auto|right; eauto]. }
  rewrite Forall_forall in H. specialize (H n H0). simpl. destruct b; lia.
Qed.

Lemma pad_lens_nonneg p m : (0 <= p)%Z -> Forall (fun n => 0 <= n)%Z (lens m) -> Forall (fun n => 0 <= n)%Z (pad_lens p m).
Proof.
  intros Hp H. unfold pad_lens. destruct (all_starting_and_ending m).
  - apply Forall_map_nonneg. intros n Hn. rewrite Forall_forall in H. specialize (H n Hn). lia.
  - destruct (any_starting_or_ending m); auto. repeat apply add_where_nonneg; auto.
Qed.

Lemma fold_set_bounded c (l : list (string * list V)) : (forall i b, In (i, b) l -> length b <= kspan c - 1) ->
  forall st, bounded c st -> bounded c (fold_left set_buffer l st).
Proof.
  induction l as [|[j d] l IH]; intros H st Hst; simpl; auto. apply IH; [intros; eapply H; right; eauto|].
  intros i b. unfold set_buffer. simpl. destruct (String.eqb i j); [|apply Hst].
  intros E. inversion E; subst. eapply H. left. reflexivity.
Qed.

Theorem call_bounded c st x y st' : valid_cfg c -> Forall (fun n => 0 <= n)%Z (lens (bm x)) -> bounded c st ->
  conv_call c st x = Ok (y, st') -> bounded c st'.
Proof.
  intros Hv Hnn Hb H. unfold conv_call in H. apply bind_ok in H as (x1 & Hx & H). apply bind_ok in H as ((y1 & tmp) & Hy & H).
  inversion H; subst. pose proof (pre_hook_nonneg c st x x1 Hnn Hx) as Hn1.
  unfold conv1d in Hy. set (m1 := if 0 <? padn c then _ else _) in Hy.
  assert (Hn2 : Forall (fun n => 0 <= n)%Z (lens m1)).
  { unfold m1. destruct (0 <? padn c); auto. cbn [with_lens lens]. apply pad_lens_nonneg; auto. lia. }
  apply bind_ok in Hy as (((w1 & rows1) & np) & _ & Hy). apply bind_ok in Hy as (tmp1 & Ht & Hy).
  apply bind_ok in Hy as ((wo & out) & _ & Hy). apply bind_ok in Hy as (mask & _ & Hy). inversion Hy; subst.
  unfold post_hook. fold (del_step (V := V)). intros i b Hi. rewrite fold_del in Hi. destruct (existsb _ _); [discriminate|].
  revert Hi. apply fold_set_bounded; auto. intros j d Hj. eapply temp_buffer_bounded; eauto.
Qed.

Theorem call_releases c st x y st' : conv_call c st x = Ok (y, st') ->
  forall i, In (i, true) (zip (ids (bm y)) (eos (bm y))) -> st' i = None.
Proof.
  intros H i Hi. unfold conv_call in H. apply bind_ok in H as (x1 & Hx & H). apply bind_ok in H as ((y1 & tmp) & Hy & H).
  inversion H; subst. unfold post_hook. fold (del_step (V := V)). rewrite fold_del.
  replace (existsb _ _) with true; auto. symmetry. apply existsb_exists. exists (i, true). split; auto. simpl. apply String.eqb_refl.
Qed.

(* ---------- shape of the output, any input ---------- *)

Lemma pad_lens_rows p h (rs : list row) : pad_lens p (of_rows h rs) =
  map (fun r => rlen r + (if rsos r then p else 0) + (if reos r then p else 0))%Z rs.
Proof.
  unfold pad_lens, all_starting_and_ending, any_starting_or_ending, all_starting, all_ending, any_starting, any_ending.
  cbn [sos eos lens of_rows]. rewrite !all_true_map, !any_true_map.
  destruct (forallb rsos rs && forallb reos rs) eqn:E1.
  - rewrite map_map. apply map_ext_in. intros r Hr. rewrite andb_true_iff, !forallb_forall in E1. destruct E1 as [A B].
    rewrite (A r Hr), (B r Hr). lia.
  - destruct (existsb rsos rs || existsb reos rs) eqn:E2.
    + unfold add_where. rewrite zip_map, map_map, zip_map, map_map. cbn [fst snd].
      apply map_ext. intros r. destruct (rsos r), (reos r); lia.
    + apply map_ext_in. intros r Hr. apply orb_false_iff in E2 as [A B].
      assert (rsos r = false). { destruct (rsos r) eqn:Es; auto. assert (existsb rsos rs = true) by (apply existsb_exists; eauto). congruence. }
      assert (reos r = false). { destruct (reos r) eqn:Es; auto. assert (existsb reos rs = true) by (apply existsb_exists; eauto). congruence. }
      rewrite H, H0. lia.
Qed.

Definition padded_len c (r : row) : nat :=
  Z.to_nat (rlen r) + (if rsos r then padn c else 0) + (if reos r then padn c else 0).

Lemma nth_error_zip {A B} : forall (l1 : list A) (l2 : list B) j p, nth_error (zip l1 l2) j = Some p ->
  nth_error l1 j = Some (fst p) /\ nth_error l2 j = Some (snd p).
Proof.
  induction l1; intros [|b l2] [|j] p H; simpl in *; try discriminate.
  - inversion H; subst; auto.
  - auto.
Qed.

Lemma nth_error_map' {A B} (f : A -> B) l j b : nth_error (map f l) j = Some b -> exists a, nth_error l j = Some a /\ b = f a.
Proof. rewrite nth_error_map. destruct (nth_error l j); simpl; [|discriminate]. intros E. inversion E; eauto. Qed.

Lemma zip_length' {A B} : forall (l1 : list A) (l2 : list B), length (zip l1 l2) = Nat.min (length l1) (length l2).
Proof. induction l1; intros [|b l2]; simpl; auto. Qed.

Lemma conv1d_zero c x y tmp : valid_cfg c -> conv1d c x = Ok (y, tmp) ->
  forall j row, nth_error (bd y) j = Some row -> length row = bw y /\
     forall n t, nth_error (lens (bm y)) j = Some n -> (n <= Z.of_nat t)%Z -> t < bw y -> nth_error row t = Some (zout c).
Proof.
  intros Hv Hy. unfold conv1d in Hy. set (m1 := if 0 <? padn c then _ else _) in Hy. clearbody m1.
  apply bind_ok in Hy as (((w1 & rows1) & np) & _ & Hy). apply bind_ok in Hy as (tmp1 & Ht & Hy).
  apply bind_ok in Hy as ((wo & out) & Hconv & Hy). apply bind_ok in Hy as (mask & Hmask & Hy). inversion Hy; subst. clear Hy.
  cbn [bm bd bw with_lens lens]. intros j row Hj. apply nth_error_map' in Hj as ((mr & orow) & Hj & ->). cbn [fst snd].
  apply nth_error_zip in Hj as [Hj1 Hj2]. cbn [fst snd] in *.
  assert (Hor : length orow = wo).
  { unfold torch_conv1d in Hconv. destruct (_ <? _)%Z; [discriminate|]. inversion Hconv; subst.
    apply nth_error_map' in Hj2 as (a & _ & ->). unfold torch_conv_row. now rewrite map_length, seq_length. }
  unfold sequence_mask in Hmask.
  assert (Hwo : 0 < wo).
  { rewrite (torch_conv1d_eq c np w1 rows1 _ Hv eq_refl) in Hconv. destruct (w1 + 2 * np <? kspan c) eqn:E; [discriminate|].
    injection Hconv as <- _. apply nwin_lt; auto. lia. }
  replace (Z.of_nat wo =? 0)%Z with false in Hmask by lia. cbn [bind] in Hmask.
  replace (Z.of_nat wo <? 0)%Z with false in Hmask by lia. inversion Hmask; subst mask. clear Hmask. rewrite Nat2Z.id in *.
  apply nth_error_map' in Hj1 as (n & Hn & ->).
  split.
  + rewrite map_length, zip_length', !map_length, seq_length. lia.
  + intros n' t Hn' Hle Hlt. rewrite Hn in Hn'. inversion Hn'; subst n'.
    rewrite nth_error_map. rewrite map_map, <- (firstn_skipn t orow).
    destruct (nth_error (zip (map (fun k => (Z.of_nat k <? n)%Z) (seq 0 wo)) (firstn t orow ++ skipn t orow)) t) as [[b v]|] eqn:E.
    * apply nth_error_zip in E as [E _]. cbn [fst] in E. apply nth_error_map' in E as (k & Ek & ->).
      assert (k = t). { assert (t < length (seq 0 wo)) by (rewrite seq_length; lia).
        rewrite (nth_error_nth' _ 0) in Ek by auto. rewrite seq_nth in Ek by lia. inversion Ek. lia. }
      subst k. simpl. replace (Z.of_nat t <? n)%Z with false by lia. reflexivity.
    * exfalso. apply nth_error_None in E. rewrite zip_length', map_length, seq_length, firstn_skipn in E. lia.
Qed.

Theorem call_zero c st x y st' : valid_cfg c -> conv_call c st x = Ok (y, st') ->
  forall j row, nth_error (bd y) j = Some row -> length row = bw y /\
     forall n t, nth_error (lens (bm y)) j = Some n -> (n <= Z.of_nat t)%Z -> t < bw y -> nth_error row t = Some (zout c).
Proof.
  intros Hv H. unfold conv_call in H. apply bind_ok in H as (x1 & Hx & H). apply bind_ok in H as ((y1 & tmp) & Hy & H).
  inversion H; subst. eapply conv1d_zero; eauto.
Qed.

Theorem conv1d_shape c x h rs y tmp : valid_cfg c -> bm x = of_rows h rs -> nonneg rs -> conv1d c x = Ok (y, tmp) ->
  bm y = of_rows h (map (fun r => mkRow (rid r) (rsos r) (reos r) (Z.of_nat (nwin c (padded_len c r))) (rch r)) rs) /\
  (forall j row, nth_error (bd y) j = Some row -> length row = bw y /\
     forall n t, nth_error (lens (bm y)) j = Some n -> (n <= Z.of_nat t)%Z -> t < bw y -> nth_error row t = Some (zout c)).
Proof.
  intros Hv Hx Hnn Hy. split; [|eapply conv1d_zero; eauto]. unfold conv1d in Hy. rewrite Hx in Hy.
  set (m1 := if 0 <? padn c then _ else _) in Hy.
  assert (Hm1 : m1 = with_lens (of_rows h rs) (map (fun r => Z.of_nat (padded_len c r)) rs)).
  { unfold m1. destruct (0 <? padn c) eqn:E.
    - rewrite pad_lens_rows. unfold with_lens. f_equal. apply map_ext_in. intros r Hr.
      assert (0 <= rlen r)%Z by (unfold nonneg in Hnn; rewrite Forall_forall in Hnn; auto).
      unfold padded_len. destruct (rsos r), (reos r); lia.
    - unfold with_lens, of_rows. cbn [ids sos eos lens chs]. f_equal. apply map_ext_in. intros r Hr.
      assert (0 <= rlen r)%Z by (unfold nonneg in Hnn; rewrite Forall_forall in Hnn; auto).
      unfold padded_len. replace (padn c) with 0 by lia. destruct (rsos r), (reos r); lia. }
  clearbody m1. subst m1.
  apply bind_ok in Hy as (((w1 & rows1) & np) & _ & Hy). apply bind_ok in Hy as (tmp1 & Ht & Hy).
  apply bind_ok in Hy as ((wo & out) & Hconv & Hy). apply bind_ok in Hy as (mask & Hmask & Hy). inversion Hy; subst. clear Hy.
  cbn [bm bd bw with_lens lens ids sos eos chs of_rows]. rewrite map_map in *.
  unfold with_lens, of_rows. cbn [ids sos eos lens chs]. rewrite !map_map. f_equal. apply map_ext. intros r. now rewrite output_length_nwin.
Qed.

(* ---------- restarts ---------- *)

Lemma pending_open c l : pending c None l <> None <-> open_stream l.
Proof.
  split.
  - intros H. destruct (pending c None l) as [A|] eqn:E; [|congruence].
    eapply pending_running; eauto. intros ->. discriminate.
  - intros (l0 & r & -> & Hr). rewrite pending_app. simpl. rewrite Hr. discriminate.
Qed.

Lemma course_of c : forall (sched : list (list (chunk V))) past, Forall good_batch sched ->
  (forall k rs, nth_error sched k = Some rs -> in_step (fun i => pending c (past i) (stream_of i (firstn k sched))) rs) ->
  on_course c past sched.
Proof.
  induction sched as [|rs sched IH]; intros past Hg H; simpl; auto. inversion Hg as [|? ? (_ & Hnd & _) Hg2]; subst. split.
  - specialize (H 0 rs eq_refl). exact H.
  - apply IH; auto. intros k qs Hk. specialize (H (S k) qs Hk). cbn [firstn] in H.
    intros r Hr. specialize (H r Hr). cbv beta in *. rewrite (pending_step c past rs _ (cid r)) in H by auto. exact H.
Qed.

Lemma restart_course c (sched : list (list (chunk V))) : restarting_schedule sched -> on_course c (fun _ => None) sched.
Proof.
  intros [Hg H]. apply course_of; auto. intros k rs Hk r Hr. destruct (H k rs r Hk Hr) as [H1 H2].
  rewrite pending_open. split; auto. intros Hs. destruct (H2 Hs) as [H3|H3]; auto. left.
  rewrite <- (pending_open c) in H3. destruct (pending c None _); auto. exfalso. apply H3. discriminate.
Qed.

Theorem restart_spec c sched ys st' : valid_cfg c -> strd c <= kspan c ->
  restarting_schedule (map trows sched) -> Forall (fits c) sched ->
  conv_run c no_buffers (map (tensor_of (zin c)) sched) = Ok (ys, st') ->
  exists outs, ys = map (tensor_of (zout c)) outs /\
    Forall2 (Forall2 follows) (map trows sched) (map trows outs) /\
    forall i l1 l l2, stream_of i (map trows sched) = l1 ++ l ++ l2 -> complete l ->
      exists o1 o o2, stream_of i (map trows outs) = o1 ++ o ++ o2 /\ length o1 = length l1 /\ length o = length l /\
        data_of o = offline c (data_of l).
Proof.
  intros Hv Hs Hg Hf Hrun. pose proof Hg as [Hg1 _].
  destruct (run_refines c Hv Hs sched _ _ ys st' Hg1 Hf (restart_course c _ Hg) (matches_none c) Hrun) as (outs & -> & HR & Ho & Hm).
  exists outs. split; auto. rewrite Ho. split; [apply spec_run_follows|]. intros i l1 l l2 E Hc.
  rewrite spec_run_stream by auto. rewrite E. cbn [so_far].
  destruct (segment_ideal c l1 l l2) as (p & ->). do 3 eexists. split; [reflexivity|]. rewrite !ideal_length.
  repeat split; auto. now apply complete_ideal.
Qed.

(** An all-starting batch does not look at the buffers at all. *)
Theorem fresh_start c st1 st2 x : all_starting (bm x) = true ->
  match conv_call c st1 x, conv_call c st2 x with
  | Ok (y1, _), Ok (y2, _) => y1 = y2
  | Err e1, Err e2 => e1 = e2
  | _, _ => False
  end.
Proof.
  intros H. unfold conv_call, pre_hook. rewrite H, andb_false_r. cbn [bind]. destruct (conv1d c x) as [[y tmp]|e]; simpl; auto.
Qed.

(* ---------- input ---------- *)

Theorem input_kept c st x x' : kspan c > 1 -> valid_cfg c -> all_starting (bm x) = false -> input_after c st x = Ok x' -> x' = x.
Proof.
  intros Hk Hv Ha H. unfold input_after in H. apply bind_ok in H as (x1 & _ & H). apply bind_ok in H as ((y & tmp) & _ & H).
  rewrite kernel_width_eq, Ha in H by auto. replace (1 <? Z.of_nat (kspan c))%Z with true in H by lia. now inversion H.
Qed.

Theorem input_shared c st x x' y st' : valid_cfg c -> kspan c <= 1 \/ all_starting (bm x) = true ->
  conv_call c st x = Ok (y, st') -> input_after c st x = Ok x' -> bm x' = bm y.
Proof.
  intros Hv Hc Hy H. unfold input_after in H. unfold conv_call in Hy. destruct (pre_hook c st x) as [x1|]; cbn [bind] in *; [|discriminate].
  destruct (conv1d c x1) as [[y1 tmp]|]; cbn [bind] in *; [|discriminate]. inversion Hy; subst.
  rewrite kernel_width_eq in H by auto.
  replace ((1 <? Z.of_nat (kspan c))%Z && negb (all_starting (bm x))) with false in H.
  - inversion H; subst. reflexivity.
  - destruct Hc as [Hc| ->]; [|now rewrite andb_false_r]. replace (1 <? Z.of_nat (kspan c))%Z with false by lia. reflexivity.
Qed.

(* ---------- the plain module ---------- *)

Lemma torch_offline c (w : nat) (rows : list (list V)) : valid_cfg c -> Forall (fun r => length r = w) rows ->
  torch_conv1d c (padn c) w rows =
    if w + 2 * padn c <? kspan c then Err RuntimeError else Ok (nwin c (w + 2 * padn c), map (offline c) rows).
Proof.
  intros Hv Hw. rewrite (torch_conv1d_eq c (padn c) w rows _ Hv eq_refl). destruct (_ <? _); auto. f_equal. f_equal.
  rewrite map_map. apply map_ext_in. intros r Hr. rewrite Forall_forall in Hw. specialize (Hw r Hr).
  unfold offline. rewrite torch_row. unfold conv_seq, zeros. f_equal. f_equal. f_equal.
  rewrite !app_length, !repeat_length. lia.
Qed.

(** Spare columns do not matter to a run. *)
Theorem spare_harmless c sched1 sched2 ys1 ys2 st1 st2 : valid_cfg c -> strd c <= kspan c ->
  good_schedule (map trows sched1) -> map trows sched1 = map trows sched2 -> Forall (fits c) sched1 -> Forall (fits c) sched2 ->
  conv_run c no_buffers (map (tensor_of (zin c)) sched1) = Ok (ys1, st1) ->
  conv_run c no_buffers (map (tensor_of (zin c)) sched2) = Ok (ys2, st2) ->
  exists outs1 outs2, ys1 = map (tensor_of (zout c)) outs1 /\ ys2 = map (tensor_of (zout c)) outs2 /\
    map trows outs1 = map trows outs2 /\ forall i, st1 i = st2 i.
Proof.
  intros Hv Hs Hg E F1 F2 R1 R2. pose proof Hg as [Hg1 _].
  destruct (run_refines c Hv Hs sched1 _ _ ys1 st1 Hg1 F1 (good_course c _ Hg) (matches_none c) R1) as (o1 & -> & _ & A1 & B1).
  rewrite E in Hg, Hg1.
  destruct (run_refines c Hv Hs sched2 _ _ ys2 st2 Hg1 F2 (good_course c _ Hg) (matches_none c) R2) as (o2 & -> & _ & A2 & B2).
  exists o1, o2. repeat split; auto.
  - now rewrite A1, A2, E.
  - intros i. now rewrite B1, B2, E.
Qed.

End ConvMoreProofs.

(** Proofs about unpad_sequence on tensors of any rank, and about the columns of padded tensors. *)

From Coq Require Import String List ZArith Bool Lia.
From Coq Require Import ZifyBool.
From Verif Require Import Py Meta MetaSpec MetaProofs MetaLenProofs MetaSplitProofs MetaBatchProofs PartitionProofs ConvMoreProofs
  Named NamedSpec NamedProofs NamedSelProofs NamedIndexProofs NamedOpsProofs NamedGetProofs NamedShapeProofs NamedSplitProofs
  Ragged RaggedSpec RaggedProofs PadTensorProofs.
From Verif Require Pad PadProofs.
Import ListNotations.
Open Scope Z_scope.

Section UnpadTensorProofs.
Context {V : Type}.
Notation tensor := (@tensor V).
Notation stensor := (@stensor V).

Lemma names_index_at (l : list dname) k s : names_distinct l -> nth_error l k = Some (Some s) -> names_index (Some s) l = Ok k.
Proof.
  intros HD H. destruct (nth_error_split _ _ H) as (pre & post & E & Hk). rewrite E, <- Hk.
  apply names_index_mid. rewrite E in HD. now apply distinct_mid in HD.
Qed.

Lemma sel_full_seq (f : nat -> sel) a n : (forall d, (a <= d < a + n)%nat -> f d = Full) -> map f (seq a n) = repeat Full n.
Proof.
  revert a. induction n as [|n IH]; intros a H; [reflexivity|]. cbn [seq map repeat]. f_equal; [apply H; lia|].
  apply IH. intros d Hd. apply H. lia.
Qed.

(** The two selected dimensions, in the order in which they occur. *)
Lemma unpad_sel_lt a m p b n : unpad_sel (a + S (m + S p)) a (a + S m) b n
  = repeat Full a ++ Drop b :: repeat Full m ++ Keep (positions n) :: repeat Full p.
Proof.
  unfold unpad_sel. rewrite seq_app, map_app. f_equal.
  - apply sel_full_seq. intros d Hd. replace (Nat.eqb d a) with false by lia. now replace (Nat.eqb d (a + S m)) with false by lia.
  - cbn [seq map Nat.add]. rewrite Nat.eqb_refl. f_equal. rewrite seq_app, map_app. f_equal.
    + apply sel_full_seq. intros d Hd. replace (Nat.eqb d a) with false by lia. now replace (Nat.eqb d (a + S m)) with false by lia.
    + cbn [seq map]. replace (Nat.eqb (S a + m) a) with false by lia. replace (Nat.eqb (S a + m) (a + S m)) with true by lia. f_equal.
      apply sel_full_seq. intros d Hd. replace (Nat.eqb d a) with false by lia. now replace (Nat.eqb d (a + S m)) with false by lia.
Qed.

Lemma unpad_sel_gt a m p b n : unpad_sel (a + S (m + S p)) (a + S m) a b n
  = repeat Full a ++ Keep (positions n) :: repeat Full m ++ Drop b :: repeat Full p.
Proof.
  unfold unpad_sel. rewrite seq_app, map_app. f_equal.
  - apply sel_full_seq. intros d Hd. replace (Nat.eqb d a) with false by lia. now replace (Nat.eqb d (a + S m)) with false by lia.
  - cbn [seq map Nat.add]. rewrite Nat.eqb_refl. replace (Nat.eqb a (a + S m)) with false by lia. f_equal. rewrite seq_app, map_app. f_equal.
    + apply sel_full_seq. intros d Hd. replace (Nat.eqb d a) with false by lia. now replace (Nat.eqb d (a + S m)) with false by lia.
    + cbn [seq map]. replace (Nat.eqb (S a + m) (a + S m)) with true by lia. f_equal.
      apply sel_full_seq. intros d Hd. replace (Nat.eqb d a) with false by lia. now replace (Nat.eqb d (a + S m)) with false by lia.
Qed.

Lemma two_dims {A} (l : list A) i j u v : nth_error l i = Some u -> nth_error l j = Some v -> (i < j)%nat ->
  exists l1 l2 l3, l = l1 ++ u :: l2 ++ v :: l3 /\ length l1 = i /\ j = (i + S (length l2))%nat.
Proof.
  intros Hi Hj Hij. destruct (nth_error_split _ _ Hi) as (l1 & r & E & L). subst l i.
  rewrite nth_error_app2 in Hj by lia. destruct (j - length l1)%nat as [|q] eqn:Eq; [lia|]. cbn [nth_error] in Hj.
  destruct (nth_error_split _ _ Hj) as (l2 & l3 & E' & L'). subst r q. exists l1, l2, l3. repeat split. lia.
Qed.

Lemma shape_two_lt (t : tensor) l1 B l2 L l3 b n : shp t = l1 ++ B :: l2 ++ L :: l3 ->
  selected t (repeat Full (length l1) ++ Drop b :: repeat Full (length l2) ++ Keep (positions n) :: repeat Full (length l3))
    (t_take (t_select t (length l1) b) (length (l1 ++ l2)) (positions n)).
Proof.
  intros E. pose proof (t_select_shp _ _ _ _ b E) as E1. rewrite app_assoc in E1. split.
  - rewrite (t_take_shp _ _ _ _ (positions n) E1), E.
    rewrite kept_sizes_app by (now rewrite repeat_length). cbn [kept_sizes].
    rewrite kept_sizes_app by (now rewrite repeat_length). cbn [kept_sizes]. rewrite !kept_sizes_full by reflexivity. now rewrite <- app_assoc.
  - intros ix Hix. rewrite (t_take_shp _ _ _ _ (positions n) E1) in Hix. rewrite <- app_assoc in Hix.
    apply in_range_app_inv in Hix as (i1 & ir & -> & H1 & Hr). apply in_range_app_inv in Hr as (i2 & iq & -> & H2 & Hq).
    inversion Hq as [|? j ? i3 Hj H3]; subst.
    pose proof (in_range_length _ _ H1) as L1. pose proof (in_range_length _ _ H2) as L2. pose proof (in_range_length _ _ H3) as L3.
    rewrite app_assoc. rewrite t_take_at by (rewrite !app_length; lia). rewrite <- app_assoc.
    rewrite t_select_at by auto. rewrite <- app_assoc.
    rewrite (source_app _ l1) by (rewrite ?repeat_length, ?kept_sizes_full; auto). cbn [source].
    rewrite (source_app _ l2) by (rewrite ?repeat_length, ?kept_sizes_full; auto). cbn [source].
    now rewrite !source_full by auto.
Qed.

Lemma shape_two_gt (t : tensor) l1 B l2 L l3 b n : shp t = l1 ++ L :: l2 ++ B :: l3 ->
  selected t (repeat Full (length l1) ++ Keep (positions n) :: repeat Full (length l2) ++ Drop b :: repeat Full (length l3))
    (t_take (t_select t (length (l1 ++ L :: l2)) b) (length l1) (positions n)).
Proof.
  intros E. assert (E0 : shp t = (l1 ++ L :: l2) ++ B :: l3) by (rewrite E, <- app_assoc; reflexivity).
  pose proof (t_select_shp _ _ _ _ b E0) as E1. rewrite <- app_assoc in E1. cbn [app] in E1. split.
  - rewrite (t_take_shp _ _ _ _ (positions n) E1), E.
    rewrite kept_sizes_app by (now rewrite repeat_length). cbn [kept_sizes].
    rewrite kept_sizes_app by (now rewrite repeat_length). cbn [kept_sizes]. now rewrite !kept_sizes_full by reflexivity.
  - intros ix Hix. rewrite (t_take_shp _ _ _ _ (positions n) E1) in Hix.
    apply in_range_app_inv in Hix as (i1 & ir & -> & H1 & Hr).
    inversion Hr as [|? j ? i3 Hj Hr']; subst. apply in_range_app_inv in Hr' as (i2 & i4 & -> & H2 & H3).
    pose proof (in_range_length _ _ H1) as L1. pose proof (in_range_length _ _ H2) as L2. pose proof (in_range_length _ _ H3) as L3.
    rewrite t_take_at by (symmetry; assumption || auto).
    change (i1 ++ nth (Z.to_nat j) (positions n) 0 :: i2 ++ i4) with (i1 ++ (nth (Z.to_nat j) (positions n) 0 :: i2) ++ i4).
    rewrite app_assoc, t_select_at by (rewrite !app_length; cbn [length]; lia). rewrite <- app_assoc. cbn [app].
    rewrite (source_app _ l1) by (rewrite ?repeat_length, ?kept_sizes_full; auto). cbn [source].
    rewrite (source_app _ l2) by (rewrite ?repeat_length, ?kept_sizes_full; auto). cbn [source].
    now rewrite !source_full by auto.
Qed.

(** x[b, :n] of one stream. *)
Lemma unpad_one_meta c r : 0 <= rlen r ->
  index_pair (of_rows c [r]) (BSlice (mkSlice None None None)) (LSlice (mkSlice (Some 0) (Some (0 + rlen r)) None))
  = Ok (of_rows c [unpad_row r]).
Proof.
  intros Hr. unfold index_pair. rewrite index_batch_full. cbn [bind].
  rewrite (index_slice_cut c [r] (rlen r)).
  - f_equal. f_equal. cbn [map]. f_equal. unfold row_cut, unpad_row. f_equal; lia.
  - constructor; [exact Hr|constructor].
  - split; [exists r; cbn; auto|]. intros x [<-|[]]. lia.
  - lia.
Qed.

Theorem unpad_tensor (x : stensor) bd ld c rs T : stream_ok x bd ld c rs T ->
  exists ys, unpad_sequence_t x = Ok ys /\ length ys = length rs /\
    (forall b r y, nth_error rs b = Some r -> nth_error ys b = Some y ->
       names y = kept (unpad_sel (length (shp (tn x))) bd ld (Z.of_nat b) (rlen r)) (names x) /\
       selected (tn x) (unpad_sel (length (shp (tn x))) bd ld (Z.of_nat b) (rlen r)) (tn y) /\
       smeta y = of_rows c [unpad_row r]).
Proof.
  intros SO. pose proof SO as [HR HD Hn HB HL HBs HLs HM Hnn Hfit].
  unfold unpad_sequence_t. change (Some BATCH) with (Some "B"%string). rewrite (names_index_at _ bd "B" HD HB). cbn [bind].
  change (Some LENGTH) with (Some "L"%string). rewrite (names_index_at _ ld "L" HD HL). cbn [bind].
  assert (Hbd : (bd < length (shp (tn x)))%nat) by (apply nth_error_Some; rewrite HBs; discriminate).
  assert (Hne : bd <> ld). { intros ->. rewrite HB in HL. discriminate HL. }
  assert (HU : unbind x (Z.of_nat bd) = Ok (map (fun q => mkSt (t_select (tn x) bd (Z.of_nat (fst q))) (remove_nth bd (names x)) (of_rows c [snd q]))
                                              (combine (seq 0 (length rs)) rs))).
  { unfold unbind. assert (E : norm_dim (ndim (tn x)) (Z.of_nat bd) = Ok bd) by (apply norm_dim_denotes; split; [exact Hbd|now left]).
    rewrite E. cbn [bind]. unfold name_at. rewrite HB. cbn [bind].
    change (dname_eqb (Some "B"%string) (Some LENGTH)) with false. change (dname_eqb (Some "B"%string) (Some BATCH)) with true. cbn [bind].
    rewrite HM, unbind_batch_rows. cbn [bind]. unfold torch_unbind, size.
    rewrite (nth_error_nth _ _ _ HBs). unfold dim_positions, zlen. rewrite Nat2Z.id, !map_length, seq_length, Nat.eqb_refl.
    f_equal.
    assert (G : forall (l : list row) a,
      map (fun p => mkSt (fst p) (remove_nth bd (names x)) (snd p))
        (zip (map (t_select (tn x) bd) (map Z.of_nat (seq a (length l)))) (map (fun r => of_rows c [r]) l))
      = map (fun q => mkSt (t_select (tn x) bd (Z.of_nat (fst q))) (remove_nth bd (names x)) (of_rows c [snd q])) (combine (seq a (length l)) l)).
    { induction l as [|r l IH]; intros a; [reflexivity|]. cbn [length seq map combine zip fst snd]. f_equal. apply IH. }
    apply G. }
  rewrite HU. cbn [bind].
  set (l' := if Nat.ltb bd ld then pred ld else ld).
  assert (HO : forall b r, nth_error rs b = Some r ->
    exists y, (do n <- Pad.the_length (of_rows c [r]); narrow (mkSt (t_select (tn x) bd (Z.of_nat b)) (remove_nth bd (names x)) (of_rows c [r])) (Z.of_nat l') 0 n) = Ok y /\
       names y = kept (unpad_sel (length (shp (tn x))) bd ld (Z.of_nat b) (rlen r)) (names x) /\
       selected (tn x) (unpad_sel (length (shp (tn x))) bd ld (Z.of_nat b) (rlen r)) (tn y) /\
       smeta y = of_rows c [unpad_row r]).
  { intros b r Hb. cbn [Pad.the_length of_rows lens map bind].
    assert (Hr : 0 <= rlen r <= T).
    { apply nth_error_In in Hb. unfold nonneg in Hnn. rewrite Forall_forall in Hnn, Hfit. split; auto. }
    assert (HI : forall m, map (fun i => 0 + i) (dim_positions m) = positions m).
    { intros m. rewrite map_ext with (g := fun i => i) by reflexivity. now rewrite map_id. }
    unfold narrow. cbn [tn names smeta].
    destruct (Nat.lt_ge_cases bd ld) as [Hlt|Hge].
    - destruct (two_dims _ _ _ _ _ HBs HLs Hlt) as (s1 & s2 & s3 & Es & L1 & L2).
      destruct (two_dims _ _ _ _ _ HB HL Hlt) as (n1 & n2 & n3 & En & M1 & M2).
      assert (N3 : length n3 = length s3). { rewrite Es, En, !app_length in HR. cbn [length] in HR. rewrite !app_length in HR. cbn [length] in HR. lia. }
      assert (El : l' = length (s1 ++ s2)). { unfold l'. replace (Nat.ltb bd ld) with true by lia. rewrite app_length. lia. }
      assert (Esel : shp (t_select (tn x) bd (Z.of_nat b)) = (s1 ++ s2) ++ T :: s3).
      { rewrite <- L1, (t_select_shp _ _ _ _ _ Es). now rewrite app_assoc. }
      assert (EN : norm_dim (ndim (t_select (tn x) bd (Z.of_nat b))) (Z.of_nat l') = Ok l').
      { apply norm_dim_denotes. split; [|now left]. unfold ndim. rewrite Esel, El, !app_length. cbn [length]. lia. }
      rewrite EN. cbn [bind]. unfold torch_narrow, size. rewrite Esel, El.
      assert (E0 : nth (length (s1 ++ s2)) ((s1 ++ s2) ++ T :: s3) 0 = T) by (rewrite app_nth2, Nat.sub_diag by lia; reflexivity).
      rewrite E0. replace (rlen r <? 0) with false by lia. replace ((0 <? - T) || (T <? 0)) with false by lia.
      cbn [Z.ltb Z.compare]. replace (T <? 0 + rlen r) with false by lia. cbn [bind].
      assert (ER : remove_nth bd (names x) = (n1 ++ n2) ++ Some "L"%string :: n3).
      { rewrite En, <- M1, remove_nth_app. now rewrite app_assoc. }
      assert (EE : nth_error ((n1 ++ n2) ++ Some "L"%string :: n3) (length (s1 ++ s2)) = Some (Some "L"%string)).
      { replace (length (s1 ++ s2)) with (length (n1 ++ n2)) by (rewrite !app_length; lia). now rewrite nth_error_app2, Nat.sub_diag by lia. }
      unfold name_at. rewrite ER, EE. cbn [bind].
      change (dname_eqb (Some "L"%string) (Some BATCH)) with false. change (dname_eqb (Some "L"%string) (Some LENGTH)) with true. cbv iota.
      rewrite unpad_one_meta by lia. cbn [bind]. eexists. split; [reflexivity|]. cbn [names tn smeta]. rewrite HI.
      assert (EU : unpad_sel (length (shp (tn x))) bd ld (Z.of_nat b) (rlen r)
                   = repeat Full (length s1) ++ Drop (Z.of_nat b) :: repeat Full (length s2) ++ Keep (positions (rlen r)) :: repeat Full (length s3)).
      { rewrite Es, !app_length. cbn [length]. rewrite app_length. cbn [length]. rewrite L2, <- L1. apply unpad_sel_lt. }
      rewrite EU. split; [|split; [|reflexivity]].
      + rewrite En. rewrite kept_app by (rewrite repeat_length; lia). cbn [kept]. rewrite kept_app by (rewrite repeat_length; lia). cbn [kept].
        rewrite !kept_full by lia. now rewrite <- app_assoc.
      + rewrite <- L1. now apply shape_two_lt with (B := zlen rs) (L := T).
    - assert (Hlt : (ld < bd)%nat) by lia.
      destruct (two_dims _ _ _ _ _ HLs HBs Hlt) as (s1 & s2 & s3 & Es & L1 & L2).
      destruct (two_dims _ _ _ _ _ HL HB Hlt) as (n1 & n2 & n3 & En & M1 & M2).
      assert (N3 : length n3 = length s3). { rewrite Es, En, !app_length in HR. cbn [length] in HR. rewrite !app_length in HR. cbn [length] in HR. lia. }
      assert (El : l' = length s1). { unfold l'. replace (Nat.ltb bd ld) with false by lia. lia. }
      assert (Eb : bd = length (s1 ++ T :: s2)) by (rewrite app_length; cbn [length]; lia).
      assert (Es' : shp (tn x) = (s1 ++ T :: s2) ++ zlen rs :: s3) by (rewrite Es, <- app_assoc; reflexivity).
      assert (Esel : shp (t_select (tn x) bd (Z.of_nat b)) = s1 ++ T :: s2 ++ s3).
      { rewrite Eb, (t_select_shp _ _ _ _ _ Es'). now rewrite <- app_assoc. }
      assert (EN : norm_dim (ndim (t_select (tn x) bd (Z.of_nat b))) (Z.of_nat l') = Ok l').
      { apply norm_dim_denotes. split; [|now left]. unfold ndim. rewrite Esel, El, !app_length. cbn [length]. lia. }
      rewrite EN. cbn [bind]. unfold torch_narrow, size. rewrite Esel, El.
      assert (E0 : nth (length s1) (s1 ++ T :: s2 ++ s3) 0 = T) by (rewrite app_nth2, Nat.sub_diag by lia; reflexivity).
      rewrite E0. replace (rlen r <? 0) with false by lia. replace ((0 <? - T) || (T <? 0)) with false by lia.
      cbn [Z.ltb Z.compare]. replace (T <? 0 + rlen r) with false by lia. cbn [bind].
      assert (ER : remove_nth bd (names x) = n1 ++ Some "L"%string :: n2 ++ n3).
      { replace (names x) with ((n1 ++ Some "L"%string :: n2) ++ Some "B"%string :: n3) by (rewrite En, <- app_assoc; reflexivity).
        replace bd with (length (n1 ++ Some "L"%string :: n2)) by (rewrite app_length; cbn [length]; lia).
        rewrite remove_nth_app, <- app_assoc. reflexivity. }
      assert (EE : nth_error (n1 ++ Some "L"%string :: n2 ++ n3) (length s1) = Some (Some "L"%string)).
      { replace (length s1) with (length n1) by lia. now rewrite nth_error_app2, Nat.sub_diag by lia. }
      unfold name_at. rewrite ER, EE. cbn [bind].
      change (dname_eqb (Some "L"%string) (Some BATCH)) with false. change (dname_eqb (Some "L"%string) (Some LENGTH)) with true. cbv iota.
      rewrite unpad_one_meta by lia. cbn [bind]. eexists. split; [reflexivity|]. cbn [names tn smeta]. rewrite HI.
      assert (EU : unpad_sel (length (shp (tn x))) bd ld (Z.of_nat b) (rlen r)
                   = repeat Full (length s1) ++ Keep (positions (rlen r)) :: repeat Full (length s2) ++ Drop (Z.of_nat b) :: repeat Full (length s3)).
      { rewrite Es, !app_length. cbn [length]. rewrite app_length. cbn [length]. rewrite L2, <- L1. apply unpad_sel_gt. }
      rewrite EU. split; [|split; [|reflexivity]].
      + rewrite En. rewrite kept_app by (rewrite repeat_length; lia). cbn [kept]. rewrite kept_app by (rewrite repeat_length; lia). cbn [kept].
        now rewrite !kept_full by lia.
      + rewrite Eb. now apply shape_two_gt with (B := zlen rs) (L := T). }
  destruct (mapM_all (fun y => do n <- Pad.the_length (smeta y); narrow y (Z.of_nat l') 0 n)
              (map (fun q => mkSt (t_select (tn x) bd (Z.of_nat (fst q))) (remove_nth bd (names x)) (of_rows c [snd q]))
                   (combine (seq 0 (length rs)) rs))) as [ys Ey].
  { intros y I. apply in_map_iff in I as ([b r] & <- & I). cbn [fst snd smeta].
    destruct (HO b r) as (y & E & _); [|eauto].
    apply In_nth_error in I as [j Ej]. clear -Ej.
    assert (G : forall (l : list row) a j, nth_error (combine (seq a (length l)) l) j = Some (b, r) -> b = (a + j)%nat /\ nth_error l j = Some r).
    { induction l as [|r0 l IH]; intros a [|i] E; cbn in E; try discriminate.
      - injection E as -> ->. split; [lia|reflexivity].
      - destruct (IH _ _ E) as [-> E']. split; [lia|exact E']. }
    destruct (G _ _ _ Ej) as [-> E']. exact E'. }
  exists ys. split; [exact Ey|]. apply mapM_Forall2 in Ey.
  assert (Hlen : length ys = length rs).
  { assert (X : forall (A B : Type) (P : A -> B -> Prop) l m, Forall2 P l m -> length m = length l) by (induction 1; cbn [length]; lia).
    rewrite (X _ _ _ _ _ Ey), map_length, combine_length, seq_length. lia. }
  split; [exact Hlen|]. intros b r y Hb Hy.
  assert (HC : nth_error (map (fun q => mkSt (t_select (tn x) bd (Z.of_nat (fst q))) (remove_nth bd (names x)) (of_rows c [snd q]))
                   (combine (seq 0 (length rs)) rs)) b = Some (mkSt (t_select (tn x) bd (Z.of_nat b)) (remove_nth bd (names x)) (of_rows c [r]))).
  { rewrite nth_error_map.
    assert (G : forall (l : list row) a j, nth_error l j = Some r -> nth_error (combine (seq a (length l)) l) j = Some ((a + j)%nat, r)).
    { induction l as [|r0 l IH]; intros a [|i] E; cbn in *; try discriminate.
      - injection E as ->. now rewrite Nat.add_0_r.
      - rewrite (IH (S a) i E). f_equal. f_equal. lia. }
    now rewrite (G _ _ _ Hb). }
  destruct (Forall2_nth_error _ _ _ Ey b _ HC) as (y' & Hy' & E). rewrite Hy in Hy'. injection Hy' as <-.
  destruct (HO b r Hb) as (y'' & E' & H). cbn [smeta] in E. rewrite E in E'. injection E' as <-. exact H.
Qed.

(* ---- padding and unpadding *)

Lemma alike_nearly k (t0 t : tensor) : alike_but k t0 t -> nearly_alike_but k t0 t.
Proof. intros [H1 H2]. split; [exact H1|]. intros d _ Hd. left. now apply H2. Qed.

(** Sizes alike except at the length dimension: the same sizes before and after it. *)
Lemma alike_split k m (t0 t : tensor) s1 n s2 : alike_but k t0 t -> shp t0 = s1 ++ n :: s2 -> length s1 = k -> length s2 = m ->
  shp t = s1 ++ nth k (shp t) 0 :: s2.
Proof.
  intros [HL H] E L1 L2. apply (nth_ext _ _ 0 0).
  - rewrite HL, E, !app_length. reflexivity.
  - intros d Hd. destruct (Nat.eq_dec d k) as [->|Hne].
    + rewrite (app_nth2 s1) by lia. now rewrite L1, Nat.sub_diag.
    + rewrite (H d Hne), E. destruct (Nat.lt_ge_cases d (length s1)).
      * now rewrite !app_nth1 by lia.
      * rewrite !app_nth2 by lia. destruct (d - length s1)%nat eqn:Ed; [lia|reflexivity].
Qed.

Theorem pad_ready_ok z bf (pre post : list dname) (t0 : tensor) l rs : pad_ready pre post t0 l rs ->
  exists x T, pad_chunks_t z (t0 :: l) (pre ++ Some "L"%string :: post) (map rid rs) (map rsos rs) (map reos rs) bf = Ok x /\
    padded z bf pre post t0 (t0 :: l) (map rid rs) (map rsos rs) (map reos rs) x /\
    stream_ok x (if bf then 0 else 1) (if bf then 1 else 0) false rs T.
Proof.
  intros (HD & HB & H0 & HA & HS & HR).
  assert (Hlen : length rs = S (length l)).
  { assert (X : forall (A B : Type) (P : A -> B -> Prop) l m, Forall2 P l m -> length l = length m) by (induction 1; cbn [length]; lia).
    now rewrite (X _ _ _ _ _ HR). }
  destruct (pad_chunks_general z bf pre post t0 l (map rid rs) (map rsos rs) (map reos rs) HD HB H0) as (x & E & HP).
  - eapply Forall_impl; [|exact HA]. intros t. apply alike_nearly.
  - now rewrite map_length.
  - now rewrite map_length.
  - now rewrite map_length.
  - pose proof HP as [P1 P2 (T & s1 & n & s2 & Es & L1 & L2 & P3 & P4) P5 P6].
    exists x, T. split; [exact E|]. split; [exact HP|].
    assert (ELs : map (fun t => nth (length pre) (shp t) 0) (t0 :: l) = map rlen rs).
    { symmetry. exact (Forall2_map_eq _ _ _ _ _ (fun a b H => H) HR). }
    assert (HN0 : Forall (fun n => 0 <= n) (shp t0)) by (inversion HS; assumption).
    assert (HNl : Forall (fun r => 0 <= rlen r) rs).
    { apply Forall_forall. intros r I. apply In_nth_error in I as [j Ej]. destruct (Forall2_nth_error _ _ _ HR j r Ej) as (t & Et & ->).
      apply nth_error_In in Et. rewrite Forall_forall in HS, HA. specialize (HS t Et). destruct (HA t Et) as [HLt _].
      rewrite Forall_forall in HS. apply HS. apply nth_In. rewrite HLt, H0. lia. }
    assert (HT : 0 <= T /\ Forall (fun r => rlen r <= T) rs).
    { destruct P4 as [I HF]. rewrite ELs in I, HF. split.
      - apply in_map_iff in I as (r & <- & I). rewrite Forall_forall in HNl. now apply HNl.
      - rewrite Forall_forall in *. intros r I'. apply HF. now apply in_map. }
    assert (Hz : zlen (t0 :: l) = zlen rs) by (unfold zlen; cbn [length]; lia).
    constructor.
    + rewrite P1, P3, !app_length. rewrite L1, L2. destruct bf; reflexivity.
    + rewrite P1. now apply distinct_out_names.
    + rewrite P3. rewrite Es in HN0. apply Forall_app in HN0 as [N1 N2]. inversion N2 as [|? ? _ N3]; subst.
      apply Forall_app. split; [|now apply Forall_app].
      assert (0 <= zlen (t0 :: l)) by (unfold zlen; lia). destruct bf; cbn [lead]; constructor; try (constructor; [|constructor]); lia.
    + rewrite P1. destruct bf; reflexivity.
    + rewrite P1. destruct bf; reflexivity.
    + rewrite P3, Hz. destruct bf; reflexivity.
    + rewrite P3. destruct bf; reflexivity.
    + rewrite P2. unfold of_rows. f_equal. exact ELs.
    + exact HNl.
    + apply HT.
Qed.

Lemma positions_zlen n : 0 <= n -> zlen (positions n) = n.
Proof. intros H. unfold zlen, positions. rewrite map_length, seq_length. lia. Qed.

Lemma positions_nth n i : 0 <= i < n -> nth (Z.to_nat i) (positions n) 0 = i.
Proof.
  intros H. unfold positions. rewrite (nth_indep _ 0 (Z.of_nat 0)) by (rewrite map_length, seq_length; lia).
  rewrite map_nth, seq_nth by lia. lia.
Qed.

Lemma app_inj_length {A} (u : list A) : forall v q q', length u = length v -> u ++ q = v ++ q' -> u = v /\ q = q'.
Proof.
  induction u as [|x u IH]; intros [|y v] q q' HL EE; try discriminate HL; cbn [app length] in *; [auto|].
  injection EE as -> EE. destruct (IH v q q') as [-> ->]; [lia|exact EE|auto].
Qed.

Theorem pad_unpad_tensor z bf (pre post : list dname) (t0 : tensor) l rs : pad_ready pre post t0 l rs ->
  exists x ys, pad_chunks_t z (t0 :: l) (pre ++ Some "L"%string :: post) (map rid rs) (map rsos rs) (map reos rs) bf = Ok x /\
    unpad_sequence_t x = Ok ys /\ length ys = length rs /\
    (forall b t r y, nth_error (t0 :: l) b = Some t -> nth_error rs b = Some r -> nth_error ys b = Some y ->
       names y = Some "L"%string :: pre ++ post /\ smeta y = of_rows false [unpad_row r] /\
       (exists s1 n s2, shp t = s1 ++ n :: s2 /\ length s1 = length pre /\ shp (tn y) = n :: s1 ++ s2) /\
       (forall a p c, length a = length pre -> in_range (shp t) (a ++ p :: c) -> at_ (tn y) (p :: a ++ c) = at_ t (a ++ p :: c))).
Proof.
  intros HR. destruct (pad_ready_ok z bf pre post t0 l rs HR) as (x & T & E & HP & SO).
  destruct (unpad_tensor x _ _ _ _ _ SO) as (ys & Ey & Hl & HY).
  exists x, ys. split; [exact E|]. split; [exact Ey|]. split; [exact Hl|].
  intros b t r y Ht Hr Hy. destruct (HY b r y Hr Hy) as (HN & [HSh HAt] & HM).
  destruct HR as (HD & HB & H0 & HA & HS & HF2). destruct HP as [P1 P2 (m & s1 & n & s2 & Es & L1 & L2 & P3 & P4) P5 P6].
  destruct (Forall2_nth_error _ _ _ HF2 b r Hr) as (t' & Ht' & Erl). rewrite Ht in Ht'. injection Ht' as <-.
  assert (It : In t (t0 :: l)) by (eapply nth_error_In; exact Ht).
  rewrite Forall_forall in HA, HS. pose proof (alike_split _ _ _ _ _ _ _ (HA t It) Es L1 L2) as Est.
  assert (Hrl : 0 <= rlen r).
  { rewrite Erl. specialize (HS t It). rewrite Forall_forall in HS. apply HS. apply nth_In. destruct (HA t It) as [-> _]. lia. }
  assert (EU : unpad_sel (length (shp (tn x))) (if bf then 0 else 1) (if bf then 1 else 0) (Z.of_nat b) (rlen r)
               = (if bf then [Drop (Z.of_nat b); Keep (positions (rlen r))] else [Keep (positions (rlen r)); Drop (Z.of_nat b)])
                 ++ repeat Full (length pre + length post)).
  { rewrite P3, !app_length, L1, L2. destruct bf; cbn [lead length].
    - apply (unpad_sel_lt 0 0 (length pre + length post)).
    - apply (unpad_sel_gt 0 0 (length pre + length post)). }
  rewrite EU in *.
  assert (EN : names y = Some "L"%string :: pre ++ post).
  { rewrite HN, P1. destruct bf; cbn [lead app kept]; rewrite kept_full by (now rewrite app_length); reflexivity. }
  assert (ESy : shp (tn y) = rlen r :: s1 ++ s2).
  { rewrite HSh, P3. destruct bf; cbn [lead app kept_sizes]; rewrite kept_sizes_full by (rewrite app_length; lia);
      now rewrite positions_zlen. }
  split; [exact EN|]. split; [exact HM|]. split.
  - exists s1, (rlen r), s2. rewrite <- Erl in Est. auto.
  - intros a p c La Hin. rewrite Est, <- Erl in Hin.
    apply Forall2_app_inv_l in Hin as (a' & r' & I1 & I2 & EQ).
    assert (La' : length a' = length s1) by (now apply in_range_length).
    assert (Ea : a = a' /\ p :: c = r').
    { apply app_inj_length; [lia|exact EQ]. }
    destruct Ea as [<- <-]. inversion I2 as [|? ? ? ? Hp I3]; subst.
    assert (Lc : length c = length s2) by (now apply in_range_length).
    rewrite HAt.
    2:{ rewrite ESy. constructor; [exact Hp|]. now apply Forall2_app. }
    replace (source ((if bf then [Drop (Z.of_nat b); Keep (positions (rlen r))] else [Keep (positions (rlen r)); Drop (Z.of_nat b)])
                     ++ repeat Full (length pre + length post)) (p :: a ++ c)) with (lead bf (Z.of_nat b) p ++ a ++ c).
    + apply (P5 b t a p c (a ++ p :: c) Ht La); [lia| |lia].
      apply reads_at_self. rewrite Est, <- Erl. apply Forall2_app; [exact I1|]. constructor; assumption.
    + destruct bf; cbn [lead app source]; rewrite source_full by (rewrite app_length; lia); now rewrite positions_nth.
Qed.

(* ---- pad_stream_tensor *)

Theorem pad_stream_general z bf (pre post : list dname) (x0 : stensor) (xs : list stensor) c rs :
  names x0 = pre ++ Some "L"%string :: post -> Forall2 (fun r x => smeta x = of_rows c [r]) rs (x0 :: xs) ->
  pad_stream_tensor_t z (x0 :: xs) bf
    = pad_chunks_t z (map tn (x0 :: xs)) (pre ++ Some "L"%string :: post) (map rid rs) (map rsos rs) (map reos rs) bf.
Proof.
  intros HN HF. unfold pad_stream_tensor_t.
  assert (E : map smeta (x0 :: xs) = map (fun r => of_rows c [r]) rs).
  { symmetry. apply (Forall2_map_eq _ _ _ _ _ (fun a b H => eq_sym H) HF). }
  rewrite E.
  assert (E2 : cat_batch (map (fun r => of_rows c [r]) rs) = Ok (of_rows c rs)).
  { pose proof (cat_batch_pieces c (map (fun r => [r]) rs)) as H. rewrite map_map in H. rewrite H.
    - f_equal. f_equal. clear. induction rs; simpl; congruence.
    - destruct rs; [inversion HF|discriminate]. }
  rewrite E2. cbn [bind]. unfold py_getitem. cbn. rewrite HN. reflexivity.
Qed.

(* ---- the columns of padded tensors are the padded columns *)

Lemma columns_length k (t : tensor) : length (columns k t) = Z.to_nat (nth k (shp t) 0).
Proof. unfold columns, positions. now rewrite !map_length, seq_length. Qed.

Lemma columns_at k (t : tensor) p v : nth_error (columns k t) p = Some v ->
  (p < Z.to_nat (nth k (shp t) 0%Z))%nat /\ forall a c, v (a, c) = at_ t (a ++ Z.of_nat p :: c).
Proof.
  intros H. assert (Hp : (p < length (columns k t))%nat) by (apply nth_error_Some; rewrite H; discriminate).
  rewrite columns_length in Hp. split; [exact Hp|]. unfold columns, positions in H. rewrite !nth_error_map in H.
  rewrite (nth_error_nth' (seq 0 (Z.to_nat (nth k (shp t) 0))) 0%nat) in H by (rewrite seq_length; lia). rewrite seq_nth in H by lia. cbn [option_map Nat.add] in H.
  injection H as <-. reflexivity.
Qed.

(** One padded row against the tensor it comes from. *)
Lemma padded_row k (t : tensor) (z : V) w row p v :
  row = columns k t ++ repeat (fun _ => z) (w - length (columns k t)) -> nth_error row p = Some v ->
  (Z.of_nat p < nth k (shp t) 0 /\ forall a c, v (a, c) = at_ t (a ++ Z.of_nat p :: c)) \/
  (nth k (shp t) 0 <= Z.of_nat p /\ forall a c, v (a, c) = z).
Proof.
  intros -> H. destruct (Nat.lt_ge_cases p (length (columns k t))) as [Hlt|Hge].
  - rewrite nth_error_app1 in H by exact Hlt. apply columns_at in H as [H1 H2]. left. split; [lia|exact H2].
  - rewrite nth_error_app2 in H by exact Hge. apply nth_error_In in H. apply repeat_spec in H. subst v. right.
    rewrite columns_length in Hge. split; [lia|reflexivity].
Qed.

Lemma greatest_width k (ts : list tensor) m w :
  (forall t, In t ts -> 0 <= nth k (shp t) 0) -> greatest m (map (fun t => nth k (shp t) 0) ts) ->
  (exists d, In d (map (columns k) ts) /\ length d = w) -> (forall d, In d (map (columns k) ts) -> (length d <= w)%nat) -> m = Z.of_nat w.
Proof.
  intros HN [I HF] (d & Id & Ed) HW. apply in_map_iff in I as (t & Et & It). apply in_map_iff in Id as (u & Eu & Iu).
  rewrite Forall_forall in HF. pose proof (HW _ (in_map (columns k) _ _ It)) as H1. rewrite columns_length in H1.
  assert (H2 : nth k (shp u) 0 <= m) by (apply HF, in_map_iff; eauto). rewrite <- Eu, columns_length in Ed.
  pose proof (HN t It). pose proof (HN u Iu). lia.
Qed.

Lemma row_of_columns {W} (f : list W -> list W) (ls : list (list W)) b row : nth_error (map f ls) b = Some row -> exists d, nth_error ls b = Some d /\ row = f d.
Proof. rewrite nth_error_map. destruct (nth_error ls b); cbn; [|discriminate]. intros H. injection H as <-. eauto. Qed.

Theorem pad_columns z bf (pre post : list dname) (t0 : tensor) l rs nms : pad_ready pre post t0 l rs ->
  ~ In "B"%string nms -> In "L"%string nms ->
  exists x w rows, pad_chunks_t z (t0 :: l) (pre ++ Some "L"%string :: post) (map rid rs) (map rsos rs) (map reos rs) bf = Ok x /\
    Pad.pad_chunks (fun _ => z) (map (columns (length pre)) (t0 :: l)) nms (map rid rs) (map rsos rs) (map reos rs)
      = Ok (Pad.mkBatch w rows (smeta x)) /\
    nth (if bf then 1%nat else 0%nat) (shp (tn x)) 0 = Z.of_nat w /\
    (forall b row p v s1 n s2 a c, nth_error rows b = Some row -> nth_error row p = Some v ->
       shp t0 = s1 ++ n :: s2 -> length s1 = length pre -> in_range s1 a -> in_range s2 c ->
       at_ (tn x) (lead bf (Z.of_nat b) (Z.of_nat p) ++ a ++ c) = v (a, c)).
Proof.
  intros HR HB HL. destruct (pad_ready_ok z bf pre post t0 l rs HR) as (x & T & E & HP & SO).
  destruct HR as (HD & HBn & H0 & HA & HS & HF2).
  assert (Hlen : length rs = length (t0 :: l)).
  { assert (X : forall (A B : Type) (P : A -> B -> Prop) l m, Forall2 P l m -> length l = length m) by (induction 1; cbn [length]; lia).
    apply (X _ _ _ _ _ HF2). }
  destruct (PadProofs.pad_chunks_spec (fun _ : list Z * list Z => z) nms (map rid rs) (map rsos rs) (map reos rs) (map (columns (length pre)) (t0 :: l)) HB HL)
    as (w & Ew & W1 & W2).
  { discriminate. } { rewrite !map_length. exact Hlen. } { rewrite !map_length. exact Hlen. } { rewrite !map_length. exact Hlen. }
  assert (HN : forall t, In t (t0 :: l) -> 0 <= nth (length pre) (shp t) 0).
  { intros t I. rewrite Forall_forall in HS, HA. specialize (HS t I). rewrite Forall_forall in HS. apply HS, nth_In.
    destruct (HA t I) as [-> _]. lia. }
  destruct HP as [P1 P2 (m & s1 & n & s2 & Es & L1 & L2 & P3 & P4) P5 P6].
  eexists x, w, _. split; [exact E|]. split.
  { rewrite Ew. f_equal. f_equal. rewrite P2. f_equal. rewrite map_map. apply map_ext_in. intros t I. rewrite columns_length. specialize (HN t I). lia. }
  split.
  - assert (EM : m = Z.of_nat w) by (eapply greatest_width; [exact HN|exact P4|exact W1|exact W2]).
    rewrite P3, <- EM. destruct bf; reflexivity.
  - intros b row p v s1' n' s2' a c Hrow Hv Es' L1' Ha Hc.
    rewrite Es in Es'. destruct (app_inj_length _ _ _ _ (eq_trans L1 (eq_sym L1')) Es') as [<- EE]. injection EE as <- <-.
    apply row_of_columns in Hrow as (d & Hd & ->). rewrite nth_error_map in Hd.
    destruct (nth_error (t0 :: l) b) as [t|] eqn:Et; [|discriminate]. cbn [option_map] in Hd. injection Hd as <-.
    assert (It : In t (t0 :: l)) by (eapply nth_error_In; exact Et).
    assert (La : length a = length pre) by (rewrite (in_range_length _ _ Ha); exact L1).
    assert (Lc : length c = length post) by (rewrite (in_range_length _ _ Hc); exact L2).
    destruct (padded_row (length pre) t z w _ p v eq_refl Hv) as [[Hp Hq]|[Hp Hq]]; rewrite Hq.
    + apply (P5 b t a _ c _ Et La Lc); [|exact Hp]. apply reads_at_self.
      rewrite Forall_forall in HA. rewrite (alike_split _ _ _ _ _ _ _ (HA t It) Es L1 L2).
      apply Forall2_app; [exact Ha|]. constructor; [lia|exact Hc].
    + now apply (P6 b t a _ c Et La Lc).
Qed.

Theorem ragged_columns z dim k (t0 : tensor) l : denotes (length (shp t0)) dim k ->
  Forall (alike_but k t0) (t0 :: l) -> Forall (fun t => 0 <= nth k (shp t) 0) (t0 :: l) ->
  exists r w rows, concatenate_ragged z (t0 :: l) dim = Ok r /\
    Pad.torch_pad_sequence (fun _ => z) (map (columns k) (t0 :: l)) = Ok (w, rows) /\
    nth (S k) (shp r) 0 = Z.of_nat w /\
    (forall b row p v s1 n s2 a c, nth_error rows b = Some row -> nth_error row p = Some v ->
       shp t0 = s1 ++ n :: s2 -> length s1 = k -> in_range s1 a -> in_range s2 c ->
       at_ r (Z.of_nat b :: a ++ Z.of_nat p :: c) = v (a, c)).
Proof.
  intros Hd HA HN. destruct (ragged_general z dim k t0 l Hd) as (r & E & [K1 K2 K3 K4 K5 K6]).
  { eapply Forall_impl; [|exact HA]. intros t. apply alike_nearly. }
  pose proof (PadProofs.pad_chunks_spec (fun _ : list Z * list Z => z) ["L"%string] (map (fun _ => EmptyString) (t0 :: l)) (map (fun _ => true) (t0 :: l))
                (map (fun _ => true) (t0 :: l)) (map (columns k) (t0 :: l))) as HS.
  destruct HS as (w & Ew & W1 & W2).
  { intros [H|[]]; discriminate H. } { now left. } { discriminate. } { now rewrite !map_length. } { now rewrite !map_length. } { now rewrite !map_length. }
  unfold Pad.pad_chunks in Ew. cbn [existsb String.eqb Ascii.eqb Bool.eqb orb negb] in Ew.
  destruct (Pad.torch_pad_sequence (fun _ => z) (map (columns k) (t0 :: l))) as [[w' rows]|] eqn:Ep; [|discriminate]. cbn [bind] in Ew.
  destruct (make_meta _ _ _ _ _) as [mm|]; [|discriminate]. cbn [bind] in Ew. injection Ew as -> -> _.
  rewrite Forall_forall in HN.
  eexists r, w, _. split; [exact E|]. split; [reflexivity|]. split.
  - eapply greatest_width; [exact HN|exact K4|exact W1|exact W2].
  - intros b row p v s1 n s2 a c Hrow Hv Es L1 Ha Hc.
    change (nth_error (map (fun d => d ++ repeat (fun _ => z) (w - length d)) (map (columns k) (t0 :: l))) b = Some row) in Hrow.
    apply row_of_columns in Hrow as (d & Hdd & ->). rewrite nth_error_map in Hdd.
    destruct (nth_error (t0 :: l) b) as [t|] eqn:Et; [|discriminate]. cbn [option_map] in Hdd. injection Hdd as <-.
    assert (It : In t (t0 :: l)) by (eapply nth_error_In; exact Et).
    pose proof (in_range_length _ _ Ha) as La. pose proof (in_range_length _ _ Hc) as Lc.
    assert (LL : length (a ++ Z.of_nat p :: c) = length (shp t0)) by (rewrite Es, !app_length; cbn [length]; lia).
    assert (Ek : nth k (a ++ Z.of_nat p :: c) 0 = Z.of_nat p) by (rewrite app_nth2 by lia; replace (k - length a)%nat with 0%nat by lia; reflexivity).
    destruct (padded_row k t z w _ p v eq_refl Hv) as [[Hp Hq]|[Hp Hq]]; rewrite Hq.
    + apply (K5 b t _ _ Et LL); [|lia]. apply reads_at_self.
      rewrite Forall_forall in HA. rewrite (alike_split _ _ _ _ _ _ _ (HA t It) Es L1 eq_refl).
      apply Forall2_app; [exact Ha|]. constructor; [lia|exact Hc].
    + apply (K6 b t _ Et LL). lia.
Qed.

End UnpadTensorProofs.

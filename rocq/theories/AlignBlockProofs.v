(** Operations that replace some dimensions, neither batch nor length, by others keep data and metadata in agreement. *)

From Coq Require Import String List ZArith Bool Lia Permutation.
From Coq Require Import ZifyBool.
From Verif Require Import Py Meta MetaSpec MetaProofs MetaLenProofs Named NamedSpec NamedProofs NamedSelProofs NamedIndexProofs
  NamedMetaProofs NamedGetProofs NamedOpsProofs FullIndex FullIndexSpec FullIndexProofs FullMaskProofs FullMaskGetProofs FullIntsProofs FullNoneProofs
  AlignSpec AlignProofs AlignOpProofs AlignGatherProofs.
Import ListNotations.
Open Scope Z_scope.

(** Dimension [d] of a shape whose [lb] dimensions from [la] on are replaced by [lb'] others. *)
Definition moved (la lb lb' d : nat) : nat := if Nat.ltb d la then d else (d - lb + lb')%nat.

Lemma moved_at {A} (a b b' c : list A) d : (d < length a \/ length a + length b <= d)%nat ->
  nth_error (a ++ b' ++ c) (moved (length a) (length b) (length b') d) = nth_error (a ++ b ++ c) d.
Proof.
  intros H. unfold moved. destruct (Nat.ltb_spec d (length a)) as [L|L].
  - rewrite !nth_error_app1 by lia. reflexivity.
  - rewrite !nth_error_app2 by lia. f_equal. lia.
Qed.

Lemma distinct_nones (a c : list dname) j : names_distinct (a ++ c) -> names_distinct (a ++ repeat None j ++ c).
Proof.
  intros HD u v s Hu Hv.
  assert (G : forall u, nth_error (a ++ repeat None j ++ c) u = Some (Some s) -> exists d, u = moved (length a) 0 j d /\ nth_error (a ++ c) d = Some (Some s)).
  { intros q Hq. destruct (Nat.lt_ge_cases q (length a)) as [L|L].
    - exists q. split; [unfold moved; destruct (Nat.ltb_spec q (length a)); lia|]. rewrite nth_error_app1 in * by lia. exact Hq.
    - rewrite nth_error_app2 in Hq by lia. destruct (Nat.lt_ge_cases (q - length a) j) as [L'|L'].
      + rewrite nth_error_app1 in Hq by (rewrite repeat_length; lia). apply nth_error_In, repeat_spec in Hq. discriminate.
      + rewrite nth_error_app2, repeat_length in Hq by (rewrite repeat_length; lia). exists (length a + (q - length a - j))%nat.
        split; [unfold moved; destruct (Nat.ltb_spec (length a + (q - length a - j)) (length a)); lia|]. rewrite nth_error_app2 by lia. rewrite <- Hq. f_equal. lia. }
  destruct (G _ Hu) as (d1 & -> & H1), (G _ Hv) as (d2 & -> & H2). f_equal. now apply (HD d1 d2 s).
Qed.

Section AlignBlock.
Context {V : Type}.
Context (real : V -> bool) (owner : V -> string) (time : V -> Z).
Notation aligned_at := (aligned_at real owner time).
Notation aligned := (aligned real owner time).
Implicit Types x y : @stensor V.

Lemma block_aligned x y a b b' c0 na nb nb' nc F : aligned x ->
  shp (tn x) = a ++ b ++ c0 -> names x = na ++ nb ++ nc -> length na = length a -> length nb = length b ->
  shp (tn y) = a ++ b' ++ c0 -> names y = na ++ nb' ++ nc -> length nb' = length b' -> names_distinct (names y) ->
  Forall (fun n => 0 <= n) b' -> ~ In (Some "B"%string) nb -> ~ In (Some "L"%string) nb -> smeta y = smeta x ->
  (forall ip, in_range b' ip -> in_range b (F ip)) ->
  (forall ia ip ic, in_range a ia -> in_range b' ip -> in_range c0 ic -> at_ (tn y) (ia ++ ip ++ ic) = at_ (tn x) (ia ++ F ip ++ ic)) ->
  aligned y.
Proof.
  intros AL SX NX La Lb SYs NY Lb' ND Hb' NB NL EM HF HA. pose proof AL as (bd & ld & c & rs & T & A1). pose proof (al_ok _ _ _ _ _ _ _ _ _ A1) as SO.
  pose proof SO as [HR HD Hn HB HL HBs HLs HM Hnn Hfit].
  assert (OUT : forall d s, nth_error (names x) d = Some (Some s) -> ~ In (Some s) nb -> (d < length a \/ length a + length b <= d)%nat).
  { intros d s Hd Hs. destruct (Nat.lt_ge_cases d (length a)) as [|G]; [auto|]. right. destruct (Nat.le_gt_cases (length a + length b) d) as [|G']; [auto|].
    exfalso. apply Hs. rewrite NX in Hd. rewrite nth_error_app2 in Hd by lia. rewrite nth_error_app1 in Hd by lia. eapply nth_error_In; eauto. }
  pose proof (OUT bd _ HB NB) as OB. pose proof (OUT ld _ HL NL) as OL.
  set (sg := moved (length a) (length b) (length b')).
  assert (SGs : forall d, (d < length a \/ length a + length b <= d)%nat -> nth_error (shp (tn y)) (sg d) = nth_error (shp (tn x)) d).
  { intros d Hd. rewrite SX, SYs. now apply moved_at. }
  assert (SGn : forall d, (d < length a \/ length a + length b <= d)%nat -> nth_error (names y) (sg d) = nth_error (names x) d).
  { intros d Hd. rewrite NX, NY. unfold sg. rewrite <- La, <- Lb, <- Lb'. apply moved_at. lia. }
  apply (relayout real owner time x y bd ld (sg bd) (sg ld) c rs T A1).
  - constructor; auto.
    + rewrite NY, SYs, !app_length. rewrite NX, SX, !app_length in HR. lia.
    + rewrite SYs. rewrite SX in Hn. rewrite !Forall_app in *. tauto.
    + rewrite SGn; auto.
    + rewrite SGn; auto.
    + rewrite SGs; auto.
    + rewrite SGs; auto.
    + now rewrite EM.
  - set (phi := fun ix => firstn (length a) ix ++ F (firstn (length b') (skipn (length a) ix)) ++ skipn (length a + length b') ix).
    assert (PH : forall ia ip ic, in_range a ia -> in_range b' ip -> phi (ia ++ ip ++ ic) = ia ++ F ip ++ ic).
    { intros ia ip ic Ra Rp. unfold phi. apply in_range_len in Ra, Rp. rewrite <- Ra, <- Rp.
      rewrite firstn_app, Nat.sub_diag, firstn_all. cbn [firstn]. rewrite app_nil_r. f_equal.
      rewrite skipn_app, skipn_all, Nat.sub_diag. cbn [skipn app]. rewrite firstn_app, Nat.sub_diag, firstn_all. cbn [firstn]. rewrite app_nil_r. f_equal.
      rewrite app_assoc, skipn_app, skipn_all2 by (rewrite app_length; lia). cbn [app]. rewrite app_length.
      replace (length ia + length ip - (length ia + length ip))%nat with 0%nat by lia. reflexivity. }
    assert (SPLIT : forall ix, in_range (shp (tn y)) ix -> exists ia ip ic, ix = ia ++ ip ++ ic /\ in_range a ia /\ in_range b' ip /\ in_range c0 ic).
    { intros ix R. rewrite SYs in R. apply in_range_app in R as (ia & r & -> & Ra & R). apply in_range_app in R as (ip & ic & -> & Rp & Rc). exists ia, ip, ic. auto. }
    assert (CO : forall ia ip ic d, in_range a ia -> in_range b' ip -> (d < length a \/ length a + length b <= d)%nat ->
               nth d (ia ++ F ip ++ ic) 0 = nth (sg d) (ia ++ ip ++ ic) 0).
    { intros ia ip ic d Ra Rp Hd. apply nth_of_error. pose proof (HF ip Rp) as RF. apply in_range_len in Ra, Rp, RF. unfold sg. rewrite <- Ra, <- Rp, <- RF.
      symmetry. apply moved_at. lia. }
    exists phi. split.
    + intros ix R. destruct (SPLIT ix R) as (ia & ip & ic & -> & Ra & Rp & Rc). rewrite (PH _ _ _ Ra Rp). split; [now apply HA|].
      split; [rewrite SX; apply Forall2_app; [exact Ra|apply Forall2_app; [now apply HF|exact Rc]]|].
      split; apply CO; auto.
    + intros ix jx RI RJ HS. destruct (SPLIT ix RI) as (ia & ip & ic & -> & Ra & Rp & Rc). destruct (SPLIT jx RJ) as (ja & jp & jc & -> & Ra' & Rp' & Rc').
      rewrite (PH _ _ _ Ra Rp), (PH _ _ _ Ra' Rp').
      pose proof (in_range_len _ _ Ra) as LIa. pose proof (in_range_len _ _ Ra') as LJa. pose proof (in_range_len _ _ Rp) as LIp. pose proof (in_range_len _ _ Rp') as LJp.
      assert (EP : ip = jp).
      { apply (nth_ext _ _ 0 0); [lia|]. intros k Hk. assert (G : nth (length a + k) (ia ++ ip ++ ic) 0 = nth (length a + k) (ja ++ jp ++ jc) 0).
        { apply HS. unfold sg, moved. destruct (Nat.ltb_spec ld (length a)); lia. }
        rewrite (app_nth2 ia), (app_nth2 ja) in G by lia. rewrite LIa, LJa in G. replace (length a + k - length a)%nat with k in G by lia.
        rewrite (app_nth1 ip), (app_nth1 jp) in G by lia. exact G. }
      subst jp. intros d Hd. destruct (Nat.lt_ge_cases d (length a)) as [L|L]; [|destruct (Nat.lt_ge_cases d (length a + length b)) as [L'|L']].
      * rewrite !CO by auto. apply HS. unfold sg, moved. destruct (Nat.ltb_spec d (length a)), (Nat.ltb_spec ld (length a)); lia.
      * pose proof (in_range_len _ _ (HF ip Rp)) as LF. rewrite (app_nth2 ia), (app_nth2 ja) by lia. rewrite LIa, LJa. rewrite (app_nth1 (F ip) ic), (app_nth1 (F ip) jc) by lia. reflexivity.
      * rewrite !CO by auto. apply HS. unfold sg, moved. destruct (Nat.ltb_spec d (length a)), (Nat.ltb_spec ld (length a)); lia.
Qed.

(* ---------- None ---------- *)

Lemma new_dims_aligned x y k j : aligned x -> (k <= length (shp (tn x)))%nat -> new_dims k j (tn x) (tn y) ->
  names y = firstn k (names x) ++ repeat None j ++ skipn k (names x) -> smeta y = smeta x -> aligned y.
Proof.
  intros AL Hk [NS NA] NN EM. pose proof AL as (bd & ld & c & rs & T & [SO _ _ _]). pose proof SO as [HR HD Hn HB HL HBs HLs HM Hnn Hfit].
  assert (RNG : forall ip, in_range (repeat 1 j) ip -> ip = repeat 0 j).
  { clear. induction j as [|j IH]; intros ip R; cbn in *; inversion R as [|? i ? ip' Hi R']; subst; [reflexivity|]. f_equal; [lia|auto]. }
  apply (block_aligned x y (firstn k (shp (tn x))) [] (repeat 1 j) (skipn k (shp (tn x))) (firstn k (names x)) [] (repeat None j) (skipn k (names x)) (fun _ => [])); auto.
  - cbn. now rewrite firstn_skipn.
  - cbn. now rewrite firstn_skipn.
  - rewrite !firstn_length. lia.
  - now rewrite !repeat_length.
  - rewrite NN. apply distinct_nones. now rewrite firstn_skipn.
  - apply Forall_forall. intros n Hn'. apply repeat_spec in Hn'. lia.
  - intros ip _. constructor.
  - intros ia ip ic Ra Rp _. rewrite (RNG ip Rp). cbn [app]. apply NA. apply in_range_len in Ra. rewrite Ra, firstn_length. lia.
Qed.

Lemma nones_aligned x y bd ld c rs T l items ss j : aligned x -> stream_ok x bd ld c rs T ->
  spreads (length (shp (tn x))) (Tuple l) items -> one_fancy items ->
  picks_all (shp (tn x)) items ss -> stays (nth bd ss Full) -> stays (nth ld ss Full) ->
  nth ld ss Full = Full \/
  (exists mx, is_max_len (sel_rows (nth bd ss Full) rs) mx /\ sound_time T mx (nth ld items INone)) ->
  getitem x (Tuple (l ++ repeat INone j)) = Ok y -> aligned y.
Proof.
  intros AL SO HS HF HP SB SL HT E.
  destruct (getitem_in_step x bd ld c rs T (Tuple l) items ss SO HS HF HP HT) as (y0 & E0 & _).
  pose proof (getitem_aligned real owner time x y0 bd ld c rs T _ items ss AL SO HS HF HP SB SL HT E0) as A0.
  destruct (getitem_nones x l items ss j y0 (so_rank _ _ _ _ _ _ SO) (so_sizes _ _ _ _ _ _ SO) HS HP E0) as (y' & E' & M & NN & ND).
  rewrite E in E'. injection E' as <-. refine (new_dims_aligned y0 y _ j A0 _ ND NN M). unfold ndim; lia.
Qed.

Lemma only_nones_aligned x y j : aligned x -> getitem x (Tuple (repeat INone (S j))) = Ok y -> aligned y.
Proof.
  intros AL E. pose proof AL as (bd & ld & c & rs & T & [SO _ _ _]). pose proof SO as [HR HD Hn HB HL HBs HLs HM Hnn Hfit].
  destruct (getitem_only_nones x bd ld j HR HD HB HL) as (y' & E' & M & NN & ND). rewrite E in E'. injection E' as <-.
  apply (new_dims_aligned x y 0 (S j) AL); auto. lia.
Qed.

(* ---------- squeeze() ---------- *)

Lemma nth_squeezes d (s : list Z) n : nth_error s d = Some n -> nth d (map squeezes s) Full = squeezes n.
Proof. intros H. apply nth_error_nth. now apply map_nth_error. Qed.

Lemma squeeze_all_aligned x y bd ld c rs T : aligned x -> stream_ok x bd ld c rs T -> zlen rs <> 1 -> T <> 1 ->
  (forall i, nth_error (names x) i = Some None -> nth_error (shp (tn x)) i <> Some 1) \/
  (forall i, nth_error (names x) i = Some None -> nth_error (shp (tn x)) i = Some 1) ->
  squeeze x None = Ok y -> aligned y.
Proof.
  intros AL SO Nr NT HC E. pose proof SO as [HR HD Hn HB HL HBs HLs HM Hnn Hfit].
  destruct (squeeze_all x HR HD HC) as (y' & E' & M & HN & HSel). rewrite E in E'. injection E' as <-.
  assert (EB : nth bd (map squeezes (shp (tn x))) Full = Full) by (rewrite (nth_squeezes _ _ _ HBs); unfold squeezes; destruct (Z.eqb_spec (zlen rs) 1); [contradiction|reflexivity]).
  assert (ET : nth ld (map squeezes (shp (tn x))) Full = Full) by (rewrite (nth_squeezes _ _ _ HLs); unfold squeezes; destruct (Z.eqb_spec T 1); [contradiction|reflexivity]).
  apply (in_step_aligned real owner time x y bd ld c rs T false (map squeezes (shp (tn x))) (aligned_any real owner time _ _ _ _ _ _ AL SO)).
  - split; [exact HN|]. split; [exact HSel|]. exists rs. rewrite EB, ET. split; [congruence|reflexivity].
  - clear. induction (shp (tn x)) as [|n s IH]; cbn; constructor; auto. unfold squeezes. destruct (Z.eqb_spec n 1); cbn; [lia|auto].
  - rewrite EB. apply stays_full.
  - rewrite ET. apply stays_full.
  - intros qs. rewrite ET. discriminate.
Qed.

(* ---------- integer tensors and masks on other dimensions ---------- *)

Lemma kept_app {A} ss1 ss2 (l1 l2 : list A) : length ss1 = length l1 -> kept (ss1 ++ ss2) (l1 ++ l2) = kept ss1 l1 ++ kept ss2 l2.
Proof. revert l1; induction ss1 as [|s ss1 IH]; intros [|a l1] L; try discriminate; [reflexivity|]. cbn in L. destruct s; cbn; rewrite IH by lia; reflexivity. Qed.

Lemma kept_sizes_app ss1 ss2 l1 l2 : length ss1 = length l1 -> kept_sizes (ss1 ++ ss2) (l1 ++ l2) = kept_sizes ss1 l1 ++ kept_sizes ss2 l2.
Proof. revert l1; induction ss1 as [|s ss1 IH]; intros [|a l1] L; try discriminate; [reflexivity|]. cbn in L. destruct s; cbn; rewrite IH by lia; reflexivity. Qed.

Lemma kept_full {A} (l : list A) : kept (repeat Full (length l)) l = l.
Proof. induction l as [|a l IH]; cbn; congruence. Qed.

Lemma kept_sizes_full l : kept_sizes (repeat Full (length l)) l = l.
Proof. induction l as [|a l IH]; cbn; congruence. Qed.

Lemma kept_len {A} ss (l : list A) s : length ss = length l -> length s = length l -> length (kept ss l) = length (kept_sizes ss s).
Proof. revert l s; induction ss as [|q ss IH]; intros [|a l] [|n s] L1 L2; try discriminate; [reflexivity|]. cbn in L1, L2. destruct q; cbn; rewrite ?(IH l s) by lia; reflexivity. Qed.

Lemma ints_aligned x y bd ld c rs T pre post ss1 ss2 ss m nm1 nm nm2 nm3 n1 n n2 n3 : aligned x -> stream_ok x bd ld c rs T ->
  shp (tn x) = n1 ++ n :: n2 ++ n3 -> names x = nm1 ++ nm :: nm2 ++ nm3 -> length nm1 = length n1 -> length nm2 = length n2 ->
  picks_all n1 pre ss1 -> picks_all n2 post ss2 -> existsb fancy pre = false -> existsb fancy post = false ->
  (1 <= length (shp m))%nat -> (forall p, in_range (shp m) p -> - n <= at_ m p < n) -> Forall (fun k => 0 <= k) (shp m) ->
  bd <> length pre -> ld <> length pre -> ss = ss1 ++ Full :: ss2 ++ repeat Full (length n3) ->
  stays (nth bd ss Full) -> stays (nth ld ss Full) ->
  (nth ld ss Full = Full \/
    exists mx, is_max_len (sel_rows (nth bd ss Full) rs) mx /\ sound_time T mx (nth ld (pre ++ all_item :: post) all_item)) ->
  x_getitem x (XTuple (map Plain pre ++ XInts m :: map Plain post)) = Ok (OStream y) -> aligned y.
Proof.
  intros AL SO ES EN L1 L2 HP1 HP2 HF1 HF2 Hm Hw Hm0 Nb Nl Ess SB SL HT E.
  destruct (getitem_ints x bd ld c rs T pre post ss1 ss2 m nm1 nm nm2 nm3 n1 n n2 n3 SO ES EN L1 L2 HP1 HP2 HF1 HF2 Hm Hw) as [_ G].
  destruct (G Nb Nl ss Ess HT) as (y' & t1 & rs' & E' & NY & HSel & [LKs LKa] & EM & ST). rewrite E in E'. injection E' as <-. clear G.
  destruct (picks_all_len _ _ _ HP1) as [LP1 LS1]. destruct (picks_all_len _ _ _ HP2) as [LP2 LS2].
  pose proof SO as [HR HD Hn HB HL HBs HLs HM Hnn Hfit].
  assert (L3 : length nm3 = length n3).
  { rewrite EN, ES, !app_length in HR. cbn [length] in HR. rewrite !app_length in HR. lia. }
  set (z := mkSt t1 (kept ss (names x)) (of_rows c rs')).
  assert (NZ : kept ss (names x) = kept ss1 nm1 ++ nm :: kept ss2 nm2 ++ nm3).
  { rewrite Ess, EN, kept_app by lia. cbn [kept]. rewrite kept_app by lia. rewrite <- L3, kept_full. reflexivity. }
  assert (SZ : shp t1 = kept_sizes ss1 n1 ++ n :: kept_sizes ss2 n2 ++ n3).
  { rewrite (proj1 HSel), Ess, ES, kept_sizes_app by lia. cbn [kept_sizes]. rewrite kept_sizes_app by lia. rewrite kept_sizes_full. reflexivity. }
  assert (HPA : picks_all (shp (tn x)) (pre ++ all_item :: post ++ repeat all_item (length n3)) ss).
  { rewrite ES, Ess. clear - HP1 HP2. revert ss1 HP1. revert pre. induction n1 as [|k n1 IH]; intros pre ss1 HP1; inversion HP1; subst.
    - cbn [app]. constructor; [constructor|]. clear HP1. revert ss2 post HP2. induction n2 as [|k n2 IH]; intros ss2 post HP2; inversion HP2; subst.
      + cbn [app]. clear. induction n3 as [|k n3 IH]; cbn; constructor; [constructor|exact IH].
      + cbn [app]. constructor; auto.
    - cbn [app]. constructor; auto. }
  assert (AZ : aligned z).
  { apply (in_step_aligned real owner time x z bd ld c rs T false ss (aligned_any real owner time _ _ _ _ _ _ AL SO)); auto.
    - split; [reflexivity|]. split; [exact HSel|]. exists rs'. split; [reflexivity|exact ST].
    - now apply picks_all_valid in HPA.
    - intros qs Eq. destruct HT as [HT|(mx & _ & HT)]; [rewrite HT in Eq; discriminate|].
      pose proof (picks_all_nth _ _ _ _ _ HPA HLs) as PL. rewrite Eq in PL.
      assert (EI : nth ld (pre ++ all_item :: post ++ repeat all_item (length n3)) INone = nth ld (pre ++ all_item :: post) all_item).
      { assert (LD : (ld < length (pre ++ all_item :: post ++ repeat all_item (length n3)))%nat).
        { assert (ld < length (shp (tn x)))%nat by (apply nth_error_Some; congruence). rewrite ES, !app_length in H. cbn [length] in H. rewrite !app_length in *. cbn [length]. rewrite app_length, repeat_length. lia. }
        rewrite (nth_indep _ INone all_item LD). rewrite app_comm_cons, app_assoc.
        destruct (Nat.lt_ge_cases ld (length (pre ++ all_item :: post))) as [A|A].
        - now rewrite app_nth1 by exact A.
        - rewrite app_nth2 by exact A. rewrite nth_repeat. now rewrite nth_overflow. }
      rewrite EI in PL. eapply sound_ascending; eauto. }
  assert (LA : length (kept ss1 nm1) = length (kept_sizes ss1 n1)) by (apply kept_len; lia).
  assert (NM : forall s d, nth_error (names x) d = Some (Some s) -> d <> length pre -> nm <> Some s).
  { intros s d Hd Nd ->. apply Nd. apply (HD d (length pre) s Hd). rewrite EN, nth_error_app2 by lia. replace (length pre - length nm1)%nat with 0%nat by lia. reflexivity. }
  apply (block_aligned z y (kept_sizes ss1 n1) [n] (shp m) (kept_sizes ss2 n2 ++ n3) (kept ss1 nm1) [nm] (repeat None (length (shp m) - 1) ++ [nm]) (kept ss2 nm2 ++ nm3)
           (fun ip => [wrap_neg n (at_ m ip)])); auto.
  - rewrite LKs, SZ, LA. rewrite firstn_app, Nat.sub_diag, firstn_all. cbn [firstn]. rewrite app_nil_r. f_equal.
    rewrite skipn_app, skipn_all2 by lia. replace (S (length (kept_sizes ss1 n1)) - length (kept_sizes ss1 n1))%nat with 1%nat by lia. reflexivity.
  - rewrite NY, <- app_assoc. reflexivity.
  - rewrite app_length, repeat_length. cbn [length]. lia.
  - rewrite NY. apply distinct_nones. rewrite <- NZ. now apply kept_distinct.
  - intros [H|[]]. exact (NM _ _ HB Nb H).
  - intros [H|[]]. exact (NM _ _ HL Nl H).
  - intros ip Rp. constructor; [|constructor]. specialize (Hw ip Rp). unfold wrap_neg. destruct (Z.ltb_spec (at_ m ip) 0); lia.
  - intros ia ip ic Ra Rp Rc. rewrite LKa.
    + cbn [tn z]. rewrite SZ, app_nth2, LA, Nat.sub_diag by lia. reflexivity.
    + apply in_range_len in Ra. lia.
    + now apply in_range_len in Rp.
    + rewrite LKs, SZ, LA. rewrite firstn_app, Nat.sub_diag, firstn_all. cbn [firstn]. rewrite app_nil_r.
      apply Forall2_app; [exact Ra|]. apply Forall2_app; [exact Rp|].
      rewrite skipn_app, skipn_all2 by lia. replace (S (length (kept_sizes ss1 n1)) - length (kept_sizes ss1 n1))%nat with 1%nat by lia. exact Rc.
Qed.

Lemma mask_aligned x y bd ld c rs T pre ss1 ss m ns nm1 nm3 n1 n3 : aligned x -> stream_ok x bd ld c rs T ->
  shp (tn x) = n1 ++ shp m ++ n3 -> names x = nm1 ++ map Some ns ++ nm3 -> length nm1 = length n1 -> length ns = length (shp m) ->
  (2 <= length (shp m))%nat -> picks_all n1 pre ss1 -> existsb fancy pre = false ->
  ~ (length pre <= bd < length pre + length (shp m))%nat -> ~ (length pre <= ld < length pre + length (shp m))%nat ->
  names_distinct (kept ss1 nm1 ++ Some (String.concat "_" ns) :: nm3) -> ss = ss1 ++ repeat Full (length (shp m ++ n3)) ->
  stays (nth bd ss Full) -> stays (nth ld ss Full) ->
  (nth ld ss Full = Full \/
    exists mx, is_max_len (sel_rows (nth bd ss Full) rs) mx /\ sound_time T mx (nth ld pre INone)) ->
  x_getitem x (XTuple (map Plain pre ++ [XMask m])) = Ok (OStream y) -> aligned y.
Proof.
  intros AL SO ES EN L1 L2 Hm HP HF Nb Nl ND Ess SB SL HT E.
  destruct (picks_all_len _ _ _ HP) as [LP LS]. pose proof SO as [HR HD Hn HB HL HBs HLs HM Hnn Hfit].
  assert (CH : forall d, ~ (length pre <= d < length pre + length (shp m))%nat -> (d < length (shp (tn x)))%nat -> chosen ss1 m d (nth d ss Full)).
  { intros d Hd Hlt. rewrite Ess. destruct (Nat.lt_ge_cases d (length ss1)) as [L|L].
    - rewrite app_nth1 by exact L. now constructor.
    - rewrite app_nth2, nth_repeat by exact L. apply Ch_after. lia. }
  assert (Lbd : (bd < length (shp (tn x)))%nat) by (apply nth_error_Some; congruence).
  assert (Lld : (ld < length (shp (tn x)))%nat) by (apply nth_error_Some; congruence).
  destruct (getitem_mask x bd ld c rs T pre ss1 m ns nm1 nm3 n1 n3 (nth bd ss Full) (nth ld ss Full) SO ES EN L1 L2 Hm HP HF (CH bd Nb Lbd) (CH ld Nl Lld))
    as (t' & nn & Enn & (t1 & HSel & (ps & MK & MS & MA)) & _ & G).
  destruct G as (rs' & E' & ST).
  { intros [A _]. exact (Nb A). }
  { now rewrite Enn. }
  { destruct HT as [HT|(mx & H1 & H2)]; [now left|]. destruct (Nat.lt_ge_cases ld (length pre)) as [L|L].
    - right. exists mx. auto.
    - left. rewrite Ess, app_nth2, nth_repeat by lia. reflexivity. }
  rewrite E in E'. injection E' as ->.
  assert (L3 : length nm3 = length n3) by (rewrite EN, ES, !app_length, map_length in HR; lia).
  rewrite <- Ess in HSel.
  set (z := mkSt t1 (kept ss (names x)) (of_rows c rs')).
  assert (NZ : kept ss (names x) = kept ss1 nm1 ++ map Some ns ++ nm3).
  { rewrite Ess, EN, kept_app by (rewrite LS; unfold dname in *; lia). f_equal. rewrite <- (kept_full (map Some ns ++ nm3)) at 2. f_equal. f_equal. rewrite !app_length, map_length. lia. }
  assert (SZ : shp t1 = kept_sizes ss1 n1 ++ shp m ++ n3).
  { rewrite (proj1 HSel), Ess, ES, kept_sizes_app by lia. f_equal. apply kept_sizes_full. }
  assert (HPA : picks_all (shp (tn x)) (pre ++ repeat all_item (length (shp m ++ n3))) ss).
  { rewrite ES, Ess. clear - HP. revert ss1 HP. revert pre. induction n1 as [|k n1 IH]; intros pre ss1 HP; inversion HP; subst.
    - cbn [app]. generalize (shp m ++ n3). intros l. induction l as [|k l IH]; cbn; constructor; [constructor|exact IH].
    - cbn [app]. constructor; auto. }
  assert (ST0 : sel_time false (nth ld ss Full) (sel_rows (nth bd ss Full) rs) rs').
  { destruct (Nat.leb_spec (length pre) ld) as [L|L]; [|exact ST]. rewrite Ess, (app_nth2 ss1), nth_repeat in * by lia. exact ST. }
  assert (AZ : aligned z).
  { apply (in_step_aligned real owner time x z bd ld c rs T false ss (aligned_any real owner time _ _ _ _ _ _ AL SO)); auto.
    - split; [reflexivity|]. split; [exact HSel|]. exists rs'. split; [reflexivity|exact ST0].
    - now apply picks_all_valid in HPA.
    - intros qs Eq. destruct HT as [HT|(mx & _ & HT)]; [rewrite HT in Eq; discriminate|].
      pose proof (picks_all_nth _ _ _ _ _ HPA HLs) as PL. rewrite Eq in PL.
      assert (LD : (ld < length pre)%nat).
      { destruct (Nat.lt_ge_cases ld (length pre)) as [L|L]; [auto|]. exfalso. rewrite Ess, app_nth2, nth_repeat in Eq by lia. discriminate. }
      rewrite app_nth1 in PL by exact LD. eapply sound_ascending; eauto. }
  assert (LA : length (kept ss1 nm1) = length (kept_sizes ss1 n1)) by (apply kept_len; lia).
  assert (NM : forall s d, nth_error (names x) d = Some (Some s) -> ~ (length pre <= d < length pre + length (shp m))%nat -> ~ In (Some s) (map Some ns)).
  { intros s d Hd Nd Hin. apply In_nth_error in Hin as (i & Hi). apply Nd.
    assert (Hlt : (i < length (map Some ns))%nat) by (apply nth_error_Some; congruence). rewrite map_length in Hlt.
    assert (d = length nm1 + i)%nat as ->; [|lia]. apply (HD d (length nm1 + i)%nat s Hd). rewrite EN, nth_error_app2 by lia.
    replace (length nm1 + i - length nm1)%nat with i by lia. rewrite nth_error_app1 by (rewrite map_length; lia). exact Hi. }
  apply (block_aligned z _ (kept_sizes ss1 n1) (shp m) [zlen ps] n3 (kept ss1 nm1) (map Some ns) [Some (String.concat "_" ns)] nm3
           (fun ip => nth (Z.to_nat (nth 0 ip 0)) ps [])); cbn [tn names smeta]; auto.
  - rewrite map_length. lia.
  - rewrite MS, SZ, LA. rewrite firstn_app, Nat.sub_diag, firstn_all. cbn [firstn]. rewrite app_nil_r. f_equal.
    rewrite app_assoc, skipn_app, skipn_all2 by (rewrite app_length; lia). rewrite app_length.
    replace (length (kept_sizes ss1 n1) + length (shp m) - (length (kept_sizes ss1 n1) + length (shp m)))%nat with 0%nat by lia. reflexivity.
  - rewrite Enn. exact ND.
  - constructor; [unfold zlen; lia|constructor].
  - exact (NM _ _ HB Nb).
  - exact (NM _ _ HL Nl).
  - intros ip Rp. inversion Rp as [|? j ? r Hj Rr]; subst. cbn [nth].
    apply (proj2 MK). apply nth_In. unfold zlen in Hj. lia.
  - intros ia ip ic Ra Rp Rc. inversion Rp as [|? j ? r Hj Rr]; subst. inversion Rr; subst. cbn [nth app].
    apply in_range_len in Ra. unfold zlen in Hj.
    cbn [tn z]. rewrite <- (MA ia (Z.to_nat j) ic (nth (Z.to_nat j) ps [])); [|lia|apply nth_error_nth'; lia]. rewrite Z2Nat.id by lia. reflexivity.
Qed.

Lemma op_aligned x y : aligned x -> op x y -> aligned y.
Proof.
  intros AL [bd ld c rs T ix items ss SO HS HF HP SB SL HT E|bd ld c rs T d k i SO HD Nb Nl E|bd ld c rs T d k start len SO HD Hs Hr E
    |bd ld c rs T k l SO Hk Hl E|Hne E|k E|d k HD NB NL E|s e E|dims E|E|d0 d1 E|bd ld c rs T d k n sz ys j SO HD HK HF Hr E Hj
    |bd ld c rs T d k ys j SO HD Nb Nl E Hj|bd ld c rs T d ix SO HF Hst E|bd ld c rs T d ix SO HF Hst Hb Hn E
    |bd ld c rs T SO Nr NT HC E|bd ld c rs T l items ss j SO HS HF HP SB SL HT E|j E
    |bd ld c rs T pre post ss1 ss2 ss m nm1 nm nm2 nm3 n1 n n2 n3 SO ES EN L1 L2 HP1 HP2 HF1 HF2 Hm Hw Hm0 Nb Nl Ess SB SL HT E
    |bd ld c rs T pre ss1 ss m ns nm1 nm3 n1 n3 SO ES EN L1 L2 Hm HP HF Nb Nl ND Ess SB SL HT E].
  - exact (getitem_aligned real owner time x y bd ld c rs T ix items ss AL SO HS HF HP SB SL HT E).
  - exact (select_aligned real owner time x y bd ld c rs T d k i AL SO HD Nb Nl E).
  - exact (narrow_aligned real owner time x y bd ld c rs T d k start len AL SO HD Hs Hr E).
  - exact (index_select_aligned real owner time x y bd ld c rs T k l AL SO Hk Hl E).
  - exact (drop_empty_aligned real owner time x y AL Hne E).
  - exact (unsqueeze_aligned real owner time x y k AL E).
  - exact (squeeze_aligned real owner time x y d k AL HD NB NL E).
  - exact (flatten_aligned real owner time x y s e AL E).
  - exact (permute_aligned real owner time x y dims AL E).
  - exact (permute_aligned real owner time x y _ AL E).
  - exact (transpose_aligned real owner time x y d0 d1 AL E).
  - exact (split_aligned real owner time x y bd ld c rs T d k n sz ys j AL SO HD HK HF Hr E Hj).
  - exact (unbind_aligned real owner time x y bd ld c rs T d k ys j AL SO HD Nb Nl E Hj).
  - exact (gather_aligned real owner time x y bd ld c rs T d ix AL SO HF Hst E).
  - exact (take_along_aligned real owner time x y bd ld c rs T d ix AL SO HF Hst Hb Hn E).
  - exact (squeeze_all_aligned x y bd ld c rs T AL SO Nr NT HC E).
  - exact (nones_aligned x y bd ld c rs T l items ss j AL SO HS HF HP SB SL HT E).
  - exact (only_nones_aligned x y j AL E).
  - exact (ints_aligned x y bd ld c rs T pre post ss1 ss2 ss m nm1 nm nm2 nm3 n1 n n2 n3 AL SO ES EN L1 L2 HP1 HP2 HF1 HF2 Hm Hw Hm0 Nb Nl Ess SB SL HT E).
  - exact (mask_aligned x y bd ld c rs T pre ss1 ss m ns nm1 nm3 n1 n3 AL SO ES EN L1 L2 Hm HP HF Nb Nl ND Ess SB SL HT E).
Qed.

End AlignBlock.

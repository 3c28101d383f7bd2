(** Each operation keeps data and metadata in agreement. *)

From Coq Require Import String List ZArith Bool Lia Permutation.
From Coq Require Import ZifyBool.
From Verif Require Import Py Meta MetaSpec MetaProofs MetaLenProofs Named NamedSpec NamedProofs NamedSelProofs NamedIndexProofs
  NamedMetaProofs NamedGetProofs NamedOpsProofs NamedShapeProofs NamedSplitProofs NamedMoreProofs AlignSpec AlignProofs.
Import ListNotations.
Open Scope Z_scope.

Section AlignOps.
Context {V : Type}.
Context (real : V -> bool) (owner : V -> string) (time : V -> Z).
Notation aligned_at := (aligned_at real owner time).
Notation aligned := (aligned real owner time).
Implicit Types x y : @stensor V.

(** The description of a stream tensor is unique up to fields that are not there. *)
Lemma aligned_any x bd ld c rs T : aligned x -> stream_ok x bd ld c rs T -> aligned_at x bd ld c rs T.
Proof.
  intros (bd0 & ld0 & c0 & rs0 & T0 & [SO AR AO AT]) S1.
  assert (bd0 = bd) by (apply (so_distinct _ _ _ _ _ _ S1 _ _ "B"%string); [apply (so_bname _ _ _ _ _ _ SO)|apply (so_bname _ _ _ _ _ _ S1)]).
  assert (ld0 = ld) by (apply (so_distinct _ _ _ _ _ _ S1 _ _ "L"%string); [apply (so_lname _ _ _ _ _ _ SO)|apply (so_lname _ _ _ _ _ _ S1)]).
  subst bd0 ld0.
  assert (R : forall i r, nth_error rs i = Some r -> exists r0, nth_error rs0 i = Some r0 /\ rid r0 = rid r /\ rlen r0 = rlen r).
  { intros i r Hr. pose proof (so_meta _ _ _ _ _ _ SO) as M0. rewrite (so_meta _ _ _ _ _ _ S1) in M0. injection M0 as E1 _ _ E4 _.
    apply (f_equal (fun l => nth_error l i)) in E1, E4. rewrite !nth_error_map, Hr in E1, E4. cbn in E1, E4.
    destruct (nth_error rs0 i) as [r0|]; [|discriminate]. exists r0. cbn in *. split; [auto|]. split; congruence. }
  constructor; auto.
  - intros ix r HR E. destruct (R _ _ E) as (r0 & E0 & _ & <-). now apply AR.
  - intros ix r HR E. destruct (R _ _ E) as (r0 & E0 & <- & _). now apply AO.
Qed.

Lemma valid_dim_sel (s : list Z) k n sl : nth_error s k = Some n -> sel_valid n sl -> Forall2 sel_valid s (dim_sel (length s) k sl).
Proof.
  intros HK HV. destruct (dim_split s k n HK) as (pre & post & -> & Hk). unfold dim_sel.
  assert (F : forall l m, length l = m -> Forall2 sel_valid l (repeat Full m)).
  { induction l as [|a l IH]; intros m Hm; subst m; cbn; constructor; cbn; auto. }
  apply Forall2_app; [apply F; lia|]. constructor; [auto|]. apply F. rewrite app_length. cbn. lia.
Qed.

Lemma stays_full : stays Full.
Proof. intros p. discriminate. Qed.
Lemma stays_keep ps : stays (Keep ps).
Proof. intros p. discriminate. Qed.

(** One dimension is selected. *)
Lemma dim_sel_aligned x y bd ld c rs T k n fy sl : aligned x -> stream_ok x bd ld c rs T -> nth_error (shp (tn x)) k = Some n ->
  in_step x bd ld c rs fy (dim_sel (ndim (tn x)) k sl) y -> sel_valid n sl -> (k = bd \/ k = ld -> stays sl) ->
  (forall qs, k = ld -> sl = Keep qs -> ascending qs) -> aligned y.
Proof.
  intros AL SO HK HI HV HS HA. pose proof (aligned_any _ _ _ _ _ _ AL SO) as A1.
  assert (Hk : (k < ndim (tn x))%nat) by (apply nth_error_Some; congruence).
  apply (in_step_aligned _ _ _ x y bd ld c rs T _ _ A1 HI).
  - now apply (valid_dim_sel _ _ n).
  - rewrite nth_dim_sel by auto. destruct (Nat.eqb_spec bd k); [apply HS; auto|apply stays_full].
  - rewrite nth_dim_sel by auto. destruct (Nat.eqb_spec ld k); [apply HS; auto|apply stays_full].
  - intros qs. rewrite nth_dim_sel by auto. destruct (Nat.eqb_spec ld k); [|discriminate]. intros E. apply (HA qs); auto.
Qed.

Lemma ascending_interval a n : ascending (interval a n).
Proof.
  unfold interval. intros i j p q Hi Hj Hl. rewrite nth_error_map in Hi, Hj.
  destruct (nth_error (positions n) i) as [u|] eqn:Eu; [|discriminate].
  destruct (nth_error (positions n) j) as [v|] eqn:Ev; [|discriminate]. cbn in Hi, Hj. injection Hi as <-. injection Hj as <-.
  pose proof (ascending_positions n i j u v Eu Ev Hl). lia.
Qed.

Lemma interval_valid a m n : 0 <= a -> a + m <= n -> Forall (fun p => 0 <= p < n) (interval a m).
Proof. intros Ha Hm. apply Forall_forall. intros p Hp. apply In_interval in Hp. lia. Qed.

Lemma ascending_masked b : ascending (mask_positions b).
Proof. apply ascending_filter, ascending_positions. Qed.

Lemma sound_ascending T mx i qs : picks T i (Keep qs) -> sound_time T mx i -> ascending qs.
Proof.
  intros HP HS. inversion HP; subst; try apply ascending_slice.
  - cbn in HS. destruct HS as (_ & _ & HS).
    replace (map (fun i => if i <? 0 then i + T else i) l) with (map (wrap_neg T) l); [auto|].
    apply map_ext. intros a. unfold wrap_neg. destruct (a <? 0); lia.
  - cbn in HS. destruct HS as (_ & _ & HS).
    replace (map (fun i => if i <? 0 then i + T else i) l) with (map (wrap_neg T) l); [auto|].
    apply map_ext. intros a. unfold wrap_neg. destruct (a <? 0); lia.
  - apply ascending_masked.
Qed.

Lemma dim_size x bd ld c rs T k : stream_ok x bd ld c rs T -> (k < ndim (tn x))%nat -> exists n, nth_error (shp (tn x)) k = Some n /\ 0 <= n.
Proof.
  intros SO Hk. destruct (nth_error (shp (tn x)) k) as [n|] eqn:E; [|apply nth_error_None in E; unfold ndim in Hk; lia].
  exists n. split; [auto|]. pose proof (so_sizes _ _ _ _ _ _ SO) as H. rewrite Forall_forall in H. apply H. eapply nth_error_In; eauto.
Qed.

Lemma getitem_aligned x y bd ld c rs T ix items ss : aligned x -> stream_ok x bd ld c rs T ->
  spreads (length (shp (tn x))) ix items -> one_fancy items ->
  picks_all (shp (tn x)) items ss -> stays (nth bd ss Full) -> stays (nth ld ss Full) ->
  nth ld ss Full = Full \/
  (exists mx, is_max_len (sel_rows (nth bd ss Full) rs) mx /\ sound_time T mx (nth ld items INone)) ->
  getitem x ix = Ok y -> aligned y.
Proof.
  intros AL SO HS HF HP SB SL HT E. pose proof (aligned_any _ _ _ _ _ _ AL SO) as A1.
  destruct (getitem_in_step x bd ld c rs T ix items ss SO HS HF HP HT) as (y' & E' & HI). rewrite E in E'. injection E' as <-.
  apply (in_step_aligned _ _ _ x y bd ld c rs T _ ss A1 HI); auto; [now apply picks_all_valid in HP|].
  intros qs Eq. destruct HT as [HT|(mx & _ & HT)]; [rewrite HT in Eq; discriminate|].
  pose proof (picks_all_nth _ _ _ _ _ HP (so_lsize _ _ _ _ _ _ SO)) as PL. rewrite Eq in PL. eapply sound_ascending; eauto.
Qed.

Lemma select_aligned x y bd ld c rs T d k i : aligned x -> stream_ok x bd ld c rs T -> denotes (length (shp (tn x))) d k ->
  k <> bd -> k <> ld -> select x d (IInt i) = Ok y -> aligned y.
Proof.
  intros AL SO HD Nb Nl E. destruct (dim_size x bd ld c rs T k SO (proj1 HD)) as (n & HK & Hn).
  assert (Hi : - n <= i < n).
  { rewrite (select_eq x d k) in E by exact HD.
    destruct (getitem_names x bd ld (Tuple (repeat all_item k ++ [IInt i])) ((repeat all_item k ++ [IInt i]) ++ repeat all_item (ndim (tn x) - length (repeat all_item k ++ [IInt i]))) y)
      as (ss & HP & _); try apply SO; auto.
    - apply S_plain; [|rewrite app_length, repeat_length; cbn; unfold ndim in *; destruct HD; lia|destruct k; discriminate].
      rewrite in_app_iff. intros [H|[H|[]]]; [|discriminate]. apply repeat_spec in H. discriminate.
    - unfold one_fancy. rewrite !filter_app, !filter_fancy_all. cbn. lia.
    - rewrite Forall_app, Forall_app. repeat split.
      + apply Forall_forall. intros q Hq. apply repeat_spec in Hq. subst q. exact I.
      + repeat constructor.
      + apply Forall_forall. intros q Hq. apply repeat_spec in Hq. subst q. exact I.
    - pose proof (picks_all_nth _ _ _ _ _ HP HK) as PK. rewrite <- app_assoc in PK.
      rewrite app_nth2 in PK by (rewrite repeat_length; lia). rewrite repeat_length, Nat.sub_diag in PK. cbn [nth app] in PK.
      now inversion PK. }
  assert (P : picks n (IInt i) (Drop (if i <? 0 then i + n else i))) by (now constructor).
  destruct (select_in_step x bd ld c rs T d k n i _ SO HD HK P) as (y' & E' & HI); [congruence|]. rewrite E in E'. injection E' as <-.
  apply (dim_sel_aligned x y bd ld c rs T k n _ _ AL SO HK HI); [exact (picks_valid _ _ _ P)| |congruence].
  intros [H|H]; contradiction.
Qed.

Lemma narrow_aligned x y bd ld c rs T d k start len : aligned x -> stream_ok x bd ld c rs T -> denotes (length (shp (tn x))) d k ->
  0 <= start -> (k = ld -> rs <> []) -> narrow x d start len = Ok y -> aligned y.
Proof.
  intros AL SO HD Hs Hr E. destruct (dim_size x bd ld c rs T k SO (proj1 HD)) as (n & HK & Hn).
  assert (B : 0 <= len /\ start + len <= n).
  { unfold narrow in E. rewrite (proj2 (norm_dim_denotes (ndim (tn x)) d k) HD) in E. cbn [bind] in E.
    unfold torch_narrow in E. unfold size in E. rewrite (nth_error_nth _ _ 0 HK) in E.
    destruct (len <? 0) eqn:E1; [discriminate|]. destruct ((start <? - n) || (n <? start)) eqn:E2; [discriminate|].
    replace (start <? 0) with false in E by lia. destruct (n <? start + len) eqn:E3; [discriminate|]. lia. }
  destruct B as [B1 B2].
  destruct (narrow_in_step x bd ld c rs T d k n start len SO HD HK Hs B1 B2 Hr) as (y' & E' & HI). rewrite E in E'. injection E' as <-.
  apply (dim_sel_aligned x y bd ld c rs T k n _ _ AL SO HK HI).
  - now apply interval_valid.
  - intros _. apply stays_keep.
  - intros qs _ Eq. injection Eq as <-. apply ascending_interval.
Qed.

Lemma index_select_aligned x y bd ld c rs T k l : aligned x -> stream_ok x bd ld c rs T -> (k < length (shp (tn x)))%nat ->
  (k = ld -> rs <> [] /\ l <> [] /\ ascending l) -> index_select x (Z.of_nat k) (IxVec l) = Ok y -> aligned y.
Proof.
  intros AL SO Hk Hl E. destruct (dim_size x bd ld c rs T k SO Hk) as (n & HK & Hn).
  assert (B : Forall (fun i => 0 <= i < n) l).
  { unfold index_select in E. rewrite (proj2 (norm_dim_denotes (ndim (tn x)) (Z.of_nat k) k)) in E by (split; [exact Hk|auto]). cbn [bind] in E.
    unfold torch_index_select, size in E. rewrite (nth_error_nth _ _ 0 HK) in E. cbn [ivec_list] in E.
    destruct (forallb _ l) eqn:F; [|discriminate]. rewrite forallb_forall in F. apply Forall_forall. intros i Hi. specialize (F i Hi). lia. }
  destruct (index_select_in_step x bd ld c rs T k n l SO HK B Hl) as (y' & E' & HI). rewrite E in E'. injection E' as <-.
  apply (dim_sel_aligned x y bd ld c rs T k n _ _ AL SO HK HI); auto.
  - intros _. apply stays_keep.
  - intros qs Ek Eq. injection Eq as <-. now apply Hl.
Qed.

Lemma drop_empty_aligned x y : aligned x -> lens (smeta x) <> [] -> st_drop_empty x = Ok (Some y) -> aligned y.
Proof.
  intros AL Hne E. pose proof AL as (bd & ld & c & rs & T & [SO _ _ _]).
  assert (Hr : rs <> []). { intros ->. rewrite (so_meta _ _ _ _ _ _ SO) in Hne. cbn in Hne. congruence. }
  destruct (drop_empty_cases x bd ld c rs T SO Hr) as (D1 & D2 & D3 & D4).
  destruct (Forall_dec (fun r => 0 < rlen r) (fun r => Z_lt_dec 0 (rlen r)) rs) as [H|H].
  { rewrite (D1 H) in E. injection E as <-. exact AL. }
  destruct (length (filter nonempty rs)) as [|[|m]] eqn:Em.
  - assert (Z0 : Forall (fun r => rlen r = 0) rs).
    { apply Forall_forall. intros r Hin. pose proof (so_nonneg _ _ _ _ _ _ SO) as Hnn. unfold nonneg in Hnn. rewrite Forall_forall in Hnn.
      specialize (Hnn r Hin). destruct (Z.eq_dec (rlen r) 0) as [|N]; [auto|].
      assert (G : In r (filter nonempty rs)) by (apply filter_In; split; [auto|unfold nonempty; lia]).
      destruct (filter nonempty rs); [destruct G|discriminate Em]. }
    rewrite (D2 Z0) in E. discriminate.
  - rewrite (D4 H eq_refl) in E. discriminate.
  - destruct (D3 H ltac:(lia)) as (y' & E' & HI & _). rewrite E in E'. injection E' as <-.
    apply (dim_sel_aligned x y bd ld c rs T bd (zlen rs) _ _ AL SO (so_bsize _ _ _ _ _ _ SO) HI).
    + apply Forall_forall. intros p Hp. now apply nonempty_at_range in Hp.
    + intros _. apply stays_keep.
    + intros qs Hq Eq. exfalso. subst ld. pose proof (so_bname _ _ _ _ _ _ SO) as N1. pose proof (so_lname _ _ _ _ _ _ SO) as N2. rewrite N1 in N2. discriminate.
Qed.

Lemma split_aligned x y bd ld c rs T d k n sz ys j : aligned x -> stream_ok x bd ld c rs T -> denotes (length (shp (tn x))) d k ->
  nth_error (shp (tn x)) k = Some n -> split_fits n sz -> (k = ld -> rs <> []) -> split x sz d = Ok ys -> nth_error ys j = Some y -> aligned y.
Proof.
  intros AL SO HD HK HF Hr E Hj.
  destruct (split_in_step x bd ld c rs T d k n sz SO HD HK HF Hr) as (ys' & E' & HI & _). rewrite E in E'. injection E' as <-.
  apply (dim_sel_aligned x y bd ld c rs T k n _ _ AL SO HK (HI j y Hj)).
  - unfold piece_positions. apply interval_valid; [|lia].
    destruct sz as [m|l]; cbn [piece_lo split_fits] in *; [nia|]. now apply zsum_firstn_nonneg.
  - intros _. apply stays_keep.
  - intros qs _ Eq. injection Eq as <-. apply ascending_interval.
Qed.

Lemma unbind_aligned x y bd ld c rs T d k ys j : aligned x -> stream_ok x bd ld c rs T -> denotes (length (shp (tn x))) d k ->
  k <> bd -> k <> ld -> unbind x d = Ok ys -> nth_error ys j = Some y -> aligned y.
Proof.
  intros AL SO HD Nb Nl E Hj. destruct (dim_size x bd ld c rs T k SO (proj1 HD)) as (n & HK & Hn).
  destruct (unbind_in_step x bd ld c rs T d k n SO HD HK Nl) as (ys' & E' & HL & HI). rewrite E in E'. injection E' as <-.
  apply (dim_sel_aligned x y bd ld c rs T k n _ _ AL SO HK (HI j y Hj)); [|intros [H|H]; contradiction|congruence].
  cbn. assert (j < length ys)%nat by (apply nth_error_Some; congruence). unfold zlen in HL. lia.
Qed.

Lemma squeeze_aligned x y d k : aligned x -> denotes (length (shp (tn x))) d k ->
  nth k (names x) None <> Some "B"%string -> nth k (names x) None <> Some "L"%string -> squeeze x (Some d) = Ok y -> aligned y.
Proof.
  intros AL HD NB NL E. pose proof AL as (bd & ld & c & rs & T & [SO _ _ _]). pose proof SO as [HR HDs Hn HB HL HBs HLs HM Hnn Hfit].
  destruct (dim_size x bd ld c rs T k SO (proj1 HD)) as (n & HK & Hn0).
  assert (Kb : k <> bd). { intros Ek. apply NB. rewrite Ek. now apply nth_error_nth. }
  assert (Kl : k <> ld). { intros Ek. apply NL. rewrite Ek. now apply nth_error_nth. }
  destruct (squeeze_dim x d k HR HDs HD) as (y' & E' & M & HN & HSel). rewrite E in E'. injection E' as <-.
  rewrite (nth_error_nth _ _ 0 HK) in *.
  apply (dim_sel_aligned x y bd ld c rs T k n false (if n =? 1 then Drop 0 else Full) AL SO HK); [|destruct (n =? 1) eqn:En; cbn; auto; lia| |].
  - split; [auto|]. split; [auto|]. exists rs. split; [congruence|]. rewrite !nth_dim_sel by (apply HD).
    replace (Nat.eqb bd k) with false by (symmetry; apply Nat.eqb_neq; auto).
    replace (Nat.eqb ld k) with false by (symmetry; apply Nat.eqb_neq; auto). reflexivity.
  - intros [H|H]; contradiction.
  - congruence.
Qed.

(* ---------- rearrangements: every row keeps all its steps ---------- *)

Lemma relayout x y bd ld bd' ld' c rs T : aligned_at x bd ld c rs T -> stream_ok y bd' ld' c rs T ->
  reads_from x y bd ld bd' ld' (fun i => i) (fun i => i) -> aligned y.
Proof.
  intros A1 SY HR. exists bd', ld', c, rs, T. apply (reindex _ _ _ x y bd ld bd' ld' c c rs rs T T (fun i => i) (fun i => i)); auto.
  intros i r _ E. exists r. auto.
Qed.

Lemma firstn_at {A} k (l : list A) d : (d < k)%nat -> nth_error (firstn k l) d = nth_error l d.
Proof. revert k d; induction l as [|a l IH]; intros [|k] [|d] H; cbn; auto; try lia. apply IH. lia. Qed.

Lemma skipn_at {A} k (l : list A) d : nth_error (skipn k l) d = nth_error l (k + d).
Proof. revert l; induction k as [|k IH]; intros [|a l]; cbn; auto. now destruct d. Qed.

Definition shifted (k d : nat) : nat := if Nat.ltb d k then d else S d.

Lemma shifted_at {A} k (a : A) l d : (k <= length l)%nat -> nth_error (firstn k l ++ a :: skipn k l) (shifted k d) = nth_error l d.
Proof.
  intros H. unfold shifted. assert (HF : length (firstn k l) = k) by (rewrite firstn_length; lia).
  destruct (Nat.ltb_spec d k).
  - rewrite nth_error_app1 by lia. now apply firstn_at.
  - rewrite nth_error_app2 by lia. rewrite HF. replace (S d - k)%nat with (S (d - k)) by lia. cbn. rewrite skipn_at. f_equal. lia.
Qed.

Lemma nth_of_error {A} (l l' : list A) i j d : nth_error l i = nth_error l' j -> nth i l d = nth j l' d.
Proof.
  intros H. destruct (nth_error l' j) as [a|] eqn:E.
  - now rewrite (nth_error_nth _ _ d E), (nth_error_nth _ _ d H).
  - rewrite !nth_overflow; auto; now apply nth_error_None.
Qed.

Lemma in_range_app s1 s2 ix : in_range (s1 ++ s2) ix -> exists i1 i2, ix = i1 ++ i2 /\ in_range s1 i1 /\ in_range s2 i2.
Proof. intros H. apply Forall2_app_inv_l in H as (i1 & i2 & H1 & H2 & ->). eauto. Qed.

Lemma in_range_len s ix : in_range s ix -> length ix = length s.
Proof. induction 1; cbn; auto. Qed.

Lemma unsqueeze_aligned x y k : aligned x -> unsqueeze x (Z.of_nat k) = Ok y -> aligned y.
Proof.
  intros AL E. pose proof AL as (bd & ld & c & rs & T & A1). pose proof (al_ok _ _ _ _ _ _ _ _ _ A1) as SO.
  pose proof SO as [HR HD Hn HB HL HBs HLs HM Hnn Hfit].
  assert (Hk : (k <= ndim (tn x))%nat).
  { unfold unsqueeze in E. destruct (norm_dim (S (ndim (tn x))) (Z.of_nat k)) as [q|] eqn:Eq; [|discriminate].
    apply norm_dim_denotes in Eq as [Q1 [Q2|Q2]]; lia. }
  destruct (unsqueeze_places x k HR HD Hk) as (y' & E' & [NS NA] & M & NN). rewrite E in E'. injection E' as <-.
  unfold ndim in Hk. assert (HkN : (k <= length (names x))%nat) by lia.
  apply (relayout x y bd ld (shifted k bd) (shifted k ld) c rs T A1).
  - constructor; auto; try congruence.
    + rewrite NN, NS, !app_length. cbn [length]. rewrite !firstn_length, !skipn_length. lia.
    + rewrite NN. intros i j s Hi Hj.
      assert (G : forall i, nth_error (firstn k (names x) ++ None :: skipn k (names x)) i = Some (Some s) ->
                  exists d, i = shifted k d /\ nth_error (names x) d = Some (Some s)).
      { intros q Hq. destruct (Nat.eq_dec q k) as [->|N].
        - rewrite nth_error_app2 in Hq by (rewrite firstn_length; lia). rewrite firstn_length, Nat.min_l, Nat.sub_diag in Hq by lia. discriminate.
        - exists (if Nat.ltb q k then q else Nat.pred q).
          assert (Eq : q = shifted k (if Nat.ltb q k then q else Nat.pred q)).
          { unfold shifted. destruct (Nat.ltb_spec q k) as [L|L].
            - destruct (Nat.ltb_spec q k); lia.
            - destruct (Nat.ltb_spec (Nat.pred q) k); lia. }
          split; [exact Eq|]. rewrite Eq, shifted_at in Hq by auto. exact Hq. }
      destruct (G _ Hi) as (u & -> & Hu), (G _ Hj) as (v & -> & Hv). f_equal. now apply (HD u v s).
    + rewrite NS. rewrite <- (firstn_skipn k (shp (tn x))), Forall_app in Hn. destruct Hn. apply Forall_app. split; auto. constructor; auto; lia.
    + rewrite NN, shifted_at; auto.
    + rewrite NN, shifted_at; auto.
    + rewrite NS, shifted_at; auto.
    + rewrite NS, shifted_at; auto.
  - exists (fun ix => firstn k ix ++ skipn (S k) ix). split.
    + intros ix R. rewrite NS in R. apply in_range_app in R as (ia & i2 & -> & Ra & R2). inversion R2 as [|? i ? ic Hi Rc]; subst.
      assert (La : length ia = k) by (rewrite (in_range_len _ _ Ra), firstn_length; lia).
      assert (i = 0) by lia. subst i.
      assert (E1 : firstn k (ia ++ 0 :: ic) = ia) by (rewrite <- La, firstn_app, Nat.sub_diag, firstn_all; cbn; apply app_nil_r).
      assert (E2 : skipn (S k) (ia ++ 0 :: ic) = ic) by (rewrite <- La, skipn_app, skipn_all2 by lia; replace (S (length ia) - length ia)%nat with 1%nat by lia; reflexivity).
      rewrite E1, E2. split; [now apply NA|]. split.
      * rewrite <- (firstn_skipn k (shp (tn x))). now apply Forall2_app.
      * assert (Q : forall d, nth d (ia ++ ic) 0 = nth (shifted k d) (ia ++ 0 :: ic) 0).
        { intros d. apply nth_of_error. rewrite <- (shifted_at k 0 (ia ++ ic) d) by (rewrite app_length; lia). f_equal.
          rewrite <- La, firstn_app, Nat.sub_diag, firstn_all, skipn_app, skipn_all, Nat.sub_diag. cbn. now rewrite app_nil_r. }
        split; apply Q.
    + intros ix jx RI RJ HS d Nd.
      assert (Q : forall ix, in_range (shp (tn y)) ix -> nth d (firstn k ix ++ skipn (S k) ix) 0 = nth (shifted k d) ix 0).
      { intros ux R. apply nth_of_error. apply in_range_len in R. rewrite NS, app_length in R. cbn [length] in R.
        rewrite firstn_length, skipn_length in R. unfold shifted. assert (length (firstn k ux) = k) by (rewrite firstn_length; lia).
        destruct (Nat.ltb_spec d k).
        - rewrite nth_error_app1 by lia. now apply firstn_at.
        - rewrite nth_error_app2 by lia. rewrite skipn_at. f_equal. lia. }
      rewrite !Q by auto. apply HS. unfold shifted in *. destruct (Nat.ltb_spec d k), (Nat.ltb_spec ld k); lia.
Qed.

Lemma permuted_aligned x y bd ld c rs T ds : aligned_at x bd ld c rs T -> Permutation ds (seq 0 (ndim (tn x))) ->
  names y = map (fun d => nth d (names x) None) ds -> smeta y = smeta x -> permuted ds (tn x) (tn y) -> aligned y.
Proof.
  intros A1 HP NN M [NS NA]. pose proof (al_ok _ _ _ _ _ _ _ _ _ A1) as SO.
  pose proof SO as [HR HD Hn HB HL HBs HLs HM Hnn Hfit]. destruct (perm_facts _ _ HP) as (P1 & P2 & P3).
  assert (Hbd : (bd < ndim (tn x))%nat) by (apply nth_error_Some; congruence).
  assert (Hld : (ld < ndim (tn x))%nat) by (apply nth_error_Some; congruence).
  assert (PI : forall d, (d < ndim (tn x))%nat -> (pos_in d ds < length ds)%nat /\ nth (pos_in d ds) ds O = d).
  { intros d Hd. apply pos_in_nth. now apply P2. }
  assert (AT : forall {A} (l : list A) df d, (d < ndim (tn x))%nat -> length l = ndim (tn x) ->
     nth_error (map (fun d => nth d l df) ds) (pos_in d ds) = nth_error l d).
  { intros A l df d Hd Hl. destruct (PI d Hd) as [Q1 Q2]. rewrite nth_error_map, (nth_error_nth' ds O Q1), Q2. cbn.
    symmetry. apply nth_error_nth'. lia. }
  apply (relayout x y bd ld (pos_in bd ds) (pos_in ld ds) c rs T A1).
  - constructor; auto; try congruence.
    + rewrite NN, NS, !map_length. reflexivity.
    + rewrite NN. apply distinct_reorder; auto. intros d Hd. apply P2 in Hd. unfold ndim in Hd. lia.
    + rewrite NS. apply Forall_forall. intros n Hin. apply in_map_iff in Hin as (d & <- & Hd). apply P2 in Hd.
      rewrite Forall_forall in Hn. apply Hn. apply nth_In. exact Hd.
    + rewrite NN, AT; auto.
    + rewrite NN, AT; auto.
    + rewrite NS, AT; auto.
    + rewrite NS, AT; auto.
  - exists (fun ix => map (fun d => nth (pos_in d ds) ix 0) (seq 0 (ndim (tn x)))).
    assert (Q : forall ix d, (d < ndim (tn x))%nat -> nth d (map (fun d => nth (pos_in d ds) ix 0) (seq 0 (ndim (tn x)))) 0 = nth (pos_in d ds) ix 0).
    { intros ix d Hd. apply nth_error_nth. rewrite nth_error_map, (nth_error_nth' _ O) by (now rewrite seq_length).
      rewrite seq_nth by auto. reflexivity. }
    split.
    + intros ix R. pose proof (in_range_len _ _ R) as Li. rewrite NS, map_length in Li. split; [|split].
      * apply NA; [exact Li|now rewrite map_length, seq_length|]. intros k Hk.
        assert (Hd : (nth k ds O < ndim (tn x))%nat) by (apply P2; now apply nth_In).
        rewrite Q by auto. f_equal. destruct (PI _ Hd) as [Q1 Q2]. apply (proj1 (NoDup_nth ds O) P3); auto.
      * assert (G : forall (l : list Z) n, length l = n -> (forall d, (d < n)%nat -> 0 <= nth (pos_in d ds) ix 0 < nth d l 0) ->
                    in_range l (map (fun d => nth (pos_in d ds) ix 0) (seq 0 n))).
        { intros l n. revert l. induction n as [|n IH]; intros l Hl H.
          - destruct l; [constructor|discriminate].
          - rewrite seq_S, map_app. cbn [map Nat.add].
            rewrite <- (firstn_skipn n l). assert (LS : length (skipn n l) = 1%nat) by (rewrite skipn_length; lia).
            apply Forall2_app.
            + apply IH; [rewrite firstn_length; lia|]. intros d Hd. specialize (H d ltac:(lia)).
              replace (nth d (firstn n l) 0) with (nth d l 0); [auto|]. apply nth_of_error. symmetry. now apply firstn_at.
            + destruct (skipn n l) as [|a [|]] eqn:Es; try discriminate. constructor; [|constructor].
              specialize (H n ltac:(lia)). replace a with (nth n l 0); [auto|].
              apply nth_error_nth. rewrite <- (Nat.add_0_r n), <- skipn_at, Es. reflexivity. }
        apply G; [reflexivity|]. intros d Hd.
        apply (in_range_nth _ _ (pos_in d ds) (nth d (shp (tn x)) 0) R). rewrite NS, AT by auto. now apply nth_error_nth'.
      * split; now apply Q.
    + intros ix jx RI RJ HS d Nd. destruct (Nat.lt_ge_cases d (ndim (tn x))) as [L|L].
      * rewrite !Q by auto. apply HS. intros Ep. apply Nd. destruct (PI d L) as [_ Q1], (PI ld Hld) as [_ Q2]. rewrite <- Q1, <- Q2. now rewrite Ep.
      * rewrite !nth_overflow; auto; rewrite map_length, seq_length; exact L.
Qed.

Lemma covers_permutation ds nd : length ds = nd -> (forall d, (d < nd)%nat -> In d ds) -> Permutation ds (seq 0 nd).
Proof.
  intros HL HI. apply Permutation_sym. apply NoDup_Permutation_bis.
  - apply seq_NoDup.
  - rewrite seq_length. lia.
  - intros d Hd. apply HI. apply in_seq in Hd. lia.
Qed.

Lemma mapM_dims_inv nd dims ds : mapM (norm_dim nd) dims = Ok ds -> Forall2 (denotes nd) dims ds.
Proof.
  revert ds. induction dims as [|d dims IH]; intros ds E; unfold mapM in *; cbn [map seqM] in E.
  - injection E as <-. constructor.
  - destruct (norm_dim nd d) as [k|] eqn:Ek; [|discriminate]. cbn [bind] in E.
    destruct (seqM (map (norm_dim nd) dims)) as [ks|] eqn:Es; [|discriminate]. cbn [bind] in E. injection E as <-.
    constructor; [now apply norm_dim_denotes|now apply IH].
Qed.

Lemma permute_aligned x y dims : aligned x -> permute x dims = Ok y -> aligned y.
Proof.
  intros AL E. pose proof AL as (bd & ld & c & rs & T & A1). pose proof (al_ok _ _ _ _ _ _ _ _ _ A1) as SO.
  assert (H : exists ds, Forall2 (denotes (ndim (tn x))) dims ds /\ Permutation ds (seq 0 (ndim (tn x)))).
  { unfold permute in E. destruct (mapM (norm_dim (ndim (tn x))) dims) as [ds|] eqn:Ed; [|discriminate]. cbn [bind] in E.
    exists ds. split; [now apply mapM_dims_inv|]. unfold torch_permute in E.
    destruct (Nat.eqb (length ds) (ndim (tn x)) && forallb (fun d => nat_mem d ds) (seq 0 (ndim (tn x)))) eqn:Eb; [|discriminate].
    apply andb_true_iff in Eb as [B1 B2]. apply Nat.eqb_eq in B1. rewrite forallb_forall in B2. apply covers_permutation; auto.
    intros d Hd. apply nat_mem_In, B2, in_seq. lia. }
  destruct H as (ds & HF & HP).
  destruct (permute_ok x dims ds (so_rank _ _ _ _ _ _ SO) (so_distinct _ _ _ _ _ _ SO) HF HP) as (y' & E' & NN & M & P).
  rewrite E in E'. injection E' as <-. now apply (permuted_aligned x y bd ld c rs T ds).
Qed.

Lemma transpose_aligned x y d0 d1 : aligned x -> method_transpose x d0 d1 = Ok y -> aligned y.
Proof.
  intros AL E. pose proof AL as (bd & ld & c & rs & T & A1).
  assert (H : exists a b, denotes (ndim (tn x)) d0 a /\ denotes (ndim (tn x)) d1 b).
  { unfold method_transpose in E. destruct (norm_dim (ndim (tn x)) d0) as [a|] eqn:Ea; [|discriminate]. cbn [bind] in E.
    destruct (norm_dim (ndim (tn x)) d1) as [b|] eqn:Eb; [|discriminate]. exists a, b. split; now apply norm_dim_denotes. }
  destruct H as (a & b & Ha & Hb). destruct (method_transpose_ok x d0 d1 a b Ha Hb) as (y' & E' & NN & M & P).
  rewrite E in E'. injection E' as <-. destruct (exchange_facts _ a b (proj1 Ha) (proj1 Hb)) as [X1 X2].
  apply (permuted_aligned x y bd ld c rs T _ A1 (covers_permutation _ _ X1 X2)); auto.
Qed.

(* ---------- flatten ---------- *)

Lemma unravel_range s p : Forall (fun n => 0 <= n) s -> 0 <= p < block_size s -> in_range s (unravel s p) /\ block_pos s (unravel s p) = p.
Proof.
  intros HF. revert p. induction HF as [|n s Hn HF IH]; intros p Hp; cbn [unravel block_size block_pos] in *; [split; [constructor|lia]|].
  rewrite !(zprod_block s). assert (0 < block_size s) by nia.
  destruct (IH (p mod block_size s)) as [I1 I2]; [apply Z.mod_pos_bound; lia|].
  pose proof (Z.div_mod p (block_size s) ltac:(lia)). split; [|rewrite I2; lia].
  constructor; [|exact I1]. split; [apply Z.div_pos; lia|]. apply Z.div_lt_upper_bound; nia.
Qed.

(** Number of dimension [d] after the dimensions a..b became one. *)
Definition merged_dim (a b d : nat) : nat := if Nat.ltb d a then d else (d - (b - a))%nat.

Lemma merged_at {A} a b (v : A) l d : (a <= b < length l)%nat -> (d < a \/ b < d)%nat ->
  nth_error (firstn a l ++ v :: skipn (S b) l) (merged_dim a b d) = nth_error l d.
Proof.
  intros H Hd. unfold merged_dim. assert (HF : length (firstn a l) = a) by (rewrite firstn_length; lia).
  destruct (Nat.ltb_spec d a).
  - rewrite nth_error_app1 by lia. now apply firstn_at.
  - rewrite nth_error_app2 by lia. rewrite HF. replace (d - (b - a) - a)%nat with (S (d - S b)) by lia. cbn [nth_error].
    rewrite skipn_at. f_equal. lia.
Qed.

Lemma names_mem_In n l : names_mem n l = true <-> In n l.
Proof.
  unfold names_mem. rewrite existsb_exists. split.
  - intros (q & Hq & E). assert (n = q); [|now subst]. destruct n, q; cbn in E; try discriminate; auto. apply String.eqb_eq in E. now subst.
  - intros H. exists n. split; auto. destruct n; cbn; auto. apply String.eqb_refl.
Qed.

Lemma flatten_aligned x y s e : aligned x -> flatten x s e = Ok (inr y) -> aligned y.
Proof.
  intros AL E. pose proof AL as (bd & ld & c & rs & T & A1). pose proof (al_ok _ _ _ _ _ _ _ _ _ A1) as SO.
  pose proof SO as [HR HD Hn HB HL HBs HLs HM Hnn Hfit].
  assert (H : exists a b, denotes (ndim (tn x)) s a /\ denotes (ndim (tn x)) e b /\ (a <= b)%nat).
  { unfold flatten in E. destruct (norm_dim (ndim (tn x)) s) as [a|] eqn:Ea; [|discriminate]. cbn [bind] in E.
    destruct (norm_dim (ndim (tn x)) e) as [b|] eqn:Eb; [|discriminate]. cbn [bind] in E.
    apply norm_dim_denotes in Ea, Eb. exists a, b. split; [auto|]. split; [auto|].
    unfold torch_flatten in E. destruct (Nat.ltb b a) eqn:El; [discriminate|]. now apply Nat.ltb_ge in El. }
  destruct H as (a & b & Ha & Hb & Hab).
  assert (Ne : e <> -1). { intros ->. rewrite (flatten_minus_one x s a HR Ha) in E. discriminate. }
  destruct (flatten_common x s e a b HR Ha Hb Hab Ne) as (t' & [NS NA] & ND & E'). rewrite E in E'. clear E.
  assert (Hl : (a <= b < length (shp (tn x)))%nat) by (split; [exact Hab|apply Hb]).
  assert (HlN : (a <= b < length (names x))%nat) by lia.
  destruct (names_mem (Some BATCH) (between a b (names x))) eqn:MB; [discriminate|].
  destruct (names_mem (Some LENGTH) (between a b (names x))) eqn:ML; [discriminate|]. cbn [orb] in E'.
  destruct (join_dim_names (between a b (names x))) as [j|] eqn:Ej; [|discriminate]. cbn [bind] in E'.
  destruct (String.eqb j EmptyString); [discriminate|].
  destruct (rename (ndim t') (firstn a (names x) ++ [Some j] ++ skipn (S b) (names x))) as [nn|] eqn:Er; [|discriminate]. cbn [bind] in E'.
  injection E' as ->.
  assert (RN : nn = firstn a (names x) ++ Some j :: skipn (S b) (names x) /\ names_distinct nn).
  { unfold rename in Er. change (firstn a (names x) ++ [Some j] ++ skipn (S b) (names x)) with (firstn a (names x) ++ Some j :: skipn (S b) (names x)) in Er.
    destruct (firstn a (names x) ++ Some j :: skipn (S b) (names x)) as [|u l] eqn:El; [destruct (firstn a (names x)); discriminate|].
    unfold refine_names in Er.
    destruct (Nat.eqb (length (u :: l)) (ndim t') && negb (names_dup (u :: l))) eqn:Ed; [|discriminate]. injection Er as <-.
    apply andb_true_iff in Ed as [_ Ed]. apply negb_true_iff in Ed. split; [reflexivity|now apply names_dup_false]. }
  destruct RN as [-> NDis].
  assert (OB : forall d n, nth_error (names x) d = Some (Some n) -> names_mem (Some n) (between a b (names x)) = false -> (d < a \/ b < d)%nat).
  { intros d n Hd Hm. destruct (Nat.lt_ge_cases d a); [auto|]. destruct (Nat.lt_ge_cases b d); [auto|]. exfalso.
    assert (G : In (Some n) (between a b (names x))) by (apply In_between; [auto|exists d; split; [lia|auto]]).
    apply names_mem_In in G. congruence. }
  pose proof (OB _ _ HB MB) as Ob. pose proof (OB _ _ HL ML) as Ol.
  apply (relayout x (mkSt t' (firstn a (names x) ++ Some j :: skipn (S b) (names x)) (smeta x)) bd ld (merged_dim a b bd) (merged_dim a b ld) c rs T A1).
  - constructor; cbn [tn names smeta]; auto.
    + rewrite NS, !app_length. cbn [length]. rewrite !firstn_length, !skipn_length. lia.
    + rewrite NS. pose proof Hn as Hn'. rewrite (three_parts a b (shp (tn x)) Hl), !Forall_app in Hn'. destruct Hn' as (F1 & F2 & F3).
      apply Forall_app. split; auto. constructor; auto.
      clear -F2. induction F2; cbn; [lia|]. nia.
    + rewrite merged_at; auto.
    + rewrite merged_at; auto.
    + rewrite NS, merged_at; auto.
    + rewrite NS, merged_at; auto.
  - set (mid := between a b (shp (tn x))) in *. exists (fun ix => firstn a ix ++ unravel mid (nth a ix 0) ++ skipn (S a) ix). cbn [tn].
    assert (Lm : length mid = (S b - a)%nat) by (now apply between_length).
    assert (Lu : forall p, length (unravel mid p) = length mid).
    { clear. induction mid as [|n m IH]; intros p; cbn; auto. }
    assert (Q : forall ix d, (a < length ix)%nat -> (d < a \/ b < d)%nat ->
              nth d (firstn a ix ++ unravel mid (nth a ix 0) ++ skipn (S a) ix) 0 = nth (merged_dim a b d) ix 0).
    { intros ix d Li Hd. apply nth_of_error. assert (LF : length (firstn a ix) = a) by (rewrite firstn_length; lia).
      unfold merged_dim. destruct (Nat.ltb_spec d a).
      - rewrite nth_error_app1 by lia. now apply firstn_at.
      - rewrite nth_error_app2 by lia. rewrite nth_error_app2 by (rewrite Lu; lia). rewrite skipn_at, Lu, LF, Lm. f_equal. lia. }
    assert (LI : forall ix, in_range (shp t') ix -> (a < length ix)%nat).
    { intros ix R. apply in_range_len in R. rewrite R, NS, app_length. cbn [length]. rewrite firstn_length. lia. }
    split.
    + intros ix R. pose proof (LI _ R) as La0. split; [|split; [|split; now apply Q]].
      * rewrite NS in R. apply in_range_app in R as (ia & i2 & -> & Ra & R2). inversion R2 as [|? p ? ic Hp Rc]; subst.
        assert (La : length ia = a) by (rewrite (in_range_len _ _ Ra), firstn_length; lia).
        assert (Fm : Forall (fun n => 0 <= n) mid).
        { rewrite (three_parts a b (shp (tn x)) Hl), !Forall_app in Hn. apply Hn. }
        destruct (unravel_range mid p Fm Hp) as [U1 U2].
        assert (E1 : firstn a (ia ++ p :: ic) = ia).
        { rewrite firstn_app, La, Nat.sub_diag. cbn [firstn]. rewrite app_nil_r. rewrite <- La. apply firstn_all. }
        assert (E2 : skipn (S a) (ia ++ p :: ic) = ic).
        { rewrite skipn_app. rewrite skipn_all2 by lia. replace (S a - length ia)%nat with 1%nat by lia. reflexivity. }
        assert (E3 : nth a (ia ++ p :: ic) 0 = p) by (rewrite <- La; apply nth_app_here).
        rewrite E1, E2, E3.
        rewrite <- (NA ia (unravel mid p) ic La U1), U2. reflexivity.
      * rewrite NS in R. apply in_range_app in R as (ia & i2 & -> & Ra & R2). inversion R2 as [|? p ? ic Hp Rc]; subst.
        assert (La : length ia = a) by (rewrite (in_range_len _ _ Ra), firstn_length; lia).
        assert (Fm : Forall (fun n => 0 <= n) mid).
        { rewrite (three_parts a b (shp (tn x)) Hl), !Forall_app in Hn. apply Hn. }
        destruct (unravel_range mid p Fm Hp) as [U1 U2].
        assert (E1 : firstn a (ia ++ p :: ic) = ia).
        { rewrite firstn_app, La, Nat.sub_diag. cbn [firstn]. rewrite app_nil_r. rewrite <- La. apply firstn_all. }
        assert (E2 : skipn (S a) (ia ++ p :: ic) = ic).
        { rewrite skipn_app. rewrite skipn_all2 by lia. replace (S a - length ia)%nat with 1%nat by lia. reflexivity. }
        assert (E3 : nth a (ia ++ p :: ic) 0 = p) by (rewrite <- La; apply nth_app_here).
        rewrite E1, E2, E3.
        rewrite (three_parts a b (shp (tn x)) Hl). apply Forall2_app; auto. apply Forall2_app; auto.
    + intros ix jx RI RJ HS d Nd. pose proof (LI _ RI) as Li. pose proof (LI _ RJ) as Lj.
      destruct (Nat.lt_ge_cases d a) as [C|C]; [|destruct (Nat.lt_ge_cases b d) as [C'|C']].
      * rewrite !Q by auto. apply HS. unfold merged_dim. destruct (Nat.ltb_spec d a), (Nat.ltb_spec ld a); lia.
      * rewrite !Q by auto. apply HS. unfold merged_dim. destruct (Nat.ltb_spec d a), (Nat.ltb_spec ld a); lia.
      * assert (Ea : nth a ix 0 = nth a jx 0). { apply HS. unfold merged_dim. destruct (Nat.ltb_spec ld a); lia. }
        apply nth_of_error. rewrite !(nth_error_app2 (firstn a _)) by (rewrite firstn_length; lia).
        rewrite !firstn_length, !Nat.min_l by lia. rewrite !nth_error_app1 by (rewrite Lu; lia). now rewrite Ea.
Qed.

(* ---------- chains ---------- *)

End AlignOps.

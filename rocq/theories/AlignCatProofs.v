(** Concatenation keeps data and metadata in agreement. *)

From Coq Require Import String List ZArith Bool Lia Permutation.
From Coq Require Import ZifyBool.
From Verif Require Import Py Meta MetaSpec MetaProofs MetaLenProofs MetaSplitProofs MetaBatchProofs Named NamedSpec NamedProofs NamedSelProofs
  NamedIndexProofs NamedMetaProofs NamedGetProofs NamedOpsProofs NamedShapeProofs NamedSplitProofs NamedCatProofs NamedMoreProofs
  AlignSpec AlignProofs AlignOpProofs AlignGatherProofs.
Import ListNotations.
Open Scope Z_scope.

Lemma cat_length_compat m0 m1 t m : cat_length (m0 :: m1 :: t) = Ok m -> cat_compatible (m0 :: m1 :: t).
Proof.
  unfold cat_length.
  destruct (negb (any_ending m0) && cat_length_checks (ids m0) (m1 :: t)) eqn:E; [|discriminate].
  apply andb_true_iff in E as [E1 E2].
  assert (HE : ~ In true (eos m0)) by (apply any_true_false; now apply negb_true_iff).
  rewrite cat_length_checks_spec in E2.
  pose proof (all_some_spec (map chs (m0 :: m1 :: t))) as HS.
  assert (Hrest : (forall i m m0', nth_error (m0 :: m1 :: t) i = Some m -> nth_error (m0 :: m1 :: t) 0 = Some m0' ->
                     i <> 0%nat -> ids m = ids m0' /\ ~ In true (sos m)) /\
    (forall i m, nth_error (m0 :: m1 :: t) i = Some m -> (S i < length (m0 :: m1 :: t))%nat -> ~ In true (eos m))).
  { split.
    - intros i q m0' Hi H0 Hne. injection H0 as <-. destruct i; [congruence|]. cbn [nth_error] in Hi.
      destruct (E2 _ _ Hi) as (A & B & _); auto.
    - intros i q Hi Hlt. destruct i; cbn [nth_error] in Hi; [injection Hi as <-; auto|].
      destruct (E2 _ _ Hi) as (_ & _ & C). apply C. simpl in *; lia. }
  destruct (all_some (map chs (m0 :: m1 :: t))) as [cs|] eqn:E; intros Hm0.
  - split; [apply Hrest|]. split; [apply Hrest|]. left. intros q Hq HN.
    assert (HI : In (chs q) (map chs (m0 :: m1 :: t))) by (apply in_map; auto).
    rewrite HS in HI. apply in_map_iff in HI as (x & Hx & _). congruence.
  - destruct (forallb _ _) eqn:EF; [|discriminate].
    split; [apply Hrest|]. split; [apply Hrest|]. right. intros q Hq.
    rewrite forallb_forall in EF. specialize (EF _ Hq). destruct (chs q); [discriminate|auto].
Qed.

(** Position [p] of a concatenation of blocks lies in one block. *)
Lemma in_block ns : forall p, Forall (fun n => 0 <= n) ns -> 0 <= p < zsum ns ->
  exists j n i, nth_error ns j = Some n /\ 0 <= i < n /\ p = zsum (firstn j ns) + i.
Proof.
  induction ns as [|n ns IH]; intros p HF Hp; [cbn in Hp; lia|]. inversion HF; subst.
  change (zsum (n :: ns)) with (n + zsum ns) in Hp.
  destruct (Z.lt_ge_cases p n).
  - exists O, n, p. cbn. split; [auto|]. split; lia.
  - destruct (IH (p - n)) as (j & m & i & E & Hi & Ep); auto; [lia|]. exists (S j), m, i. split; [auto|]. split; [auto|].
    change (zsum (firstn (S j) (n :: ns))) with (n + zsum (firstn j ns)). lia.
Qed.

Lemma nth_concat {A} (ls : list (list A)) : forall j l i, nth_error ls j = Some l -> (i < length l)%nat ->
  nth_error (concat ls) (Z.to_nat (zsum (firstn j (map zlen ls)) + Z.of_nat i)) = nth_error l i.
Proof.
  induction ls as [|l0 ls IH]; intros [|j] l i E Hi; try discriminate.
  - cbn [nth_error] in E. injection E as ->. cbn [map firstn concat]. change (zsum []) with 0.
    rewrite Z.add_0_l, Nat2Z.id. now rewrite nth_error_app1.
  - cbn [map firstn concat nth_error] in *. change (zsum (zlen l0 :: firstn j (map zlen ls))) with (zlen l0 + zsum (firstn j (map zlen ls))).
    assert (N : 0 <= zsum (firstn j (map zlen ls))).
    { apply zsum_firstn_nonneg. apply Forall_forall. intros n Hn. apply in_map_iff in Hn as (q & <- & _). apply zlen_nonneg. }
    rewrite nth_error_app2 by (unfold zlen in *; lia). rewrite <- (IH j l i E Hi). f_equal. unfold zlen in *. lia.
Qed.

Lemma concat_zlen {A} (ls : list (list A)) : zlen (concat ls) = zsum (map zlen ls).
Proof.
  induction ls as [|l ls IH]; [reflexivity|]. cbn [concat map]. change (zsum (zlen l :: map zlen ls)) with (zlen l + zsum (map zlen ls)).
  rewrite <- IH. unfold zlen. rewrite app_length. lia.
Qed.

Lemma offsets_mono ns j j' : Forall (fun n => 0 <= n) ns -> (j < j')%nat -> zsum (firstn j ns) + nth j ns 0 <= zsum (firstn j' ns).
Proof.
  intros HF. revert j j'. induction HF as [|n ns Hn HF IH]; intros j j' Hj.
  - rewrite !firstn_nil. destruct j; cbn; lia.
  - destruct j' as [|j']; [lia|]. change (zsum (firstn (S j') (n :: ns))) with (n + zsum (firstn j' ns)).
    destruct j as [|j].
    + cbn [firstn nth]. change (zsum []) with 0. pose proof (zsum_firstn_nonneg ns j' HF). lia.
    + change (zsum (firstn (S j) (n :: ns))) with (n + zsum (firstn j ns)). cbn [nth]. specialize (IH j j' ltac:(lia)). lia.
Qed.

Section AlignCat.
Context {V : Type}.
Context (real : V -> bool) (owner : V -> string) (time : V -> Z).
Notation aligned_at := (aligned_at real owner time).
Notation aligned := (aligned real owner time).
Implicit Types x y : @stensor V.

Lemma same_frame_parts d (t0 t : @tensor V) : same_frame d t0 t ->
  shp t = firstn d (shp t0) ++ nth d (shp t) 0 :: skipn (S d) (shp t0) /\ 0 <= nth d (shp t) 0 /\ (d < length (shp t0))%nat.
Proof.
  intros (pre & n0 & n & post & E0 & E & HL & _ & Hn). subst d. rewrite E0, E, nth_app_here.
  rewrite firstn_app, Nat.sub_diag, firstn_all, skipn_app, skipn_all2 by lia.
  replace (S (length pre) - length pre)%nat with 1%nat by lia. cbn. rewrite app_nil_r, app_length. cbn. split; [auto|]. lia.
Qed.

(** Every position of a concatenation is a position of one of the tensors. *)
Lemma concat_source d (t0 : @tensor V) ts t' : concatenated d t0 ts t' -> 
  Forall (fun t => same_frame d t0 t) (t0 :: ts) -> forall ix, in_range (shp t') ix ->
  exists j t i ia ic, nth_error (t0 :: ts) j = Some t /\ 0 <= i < nth d (shp t) 0 /\ length ia = d /\
    ix = ia ++ (zsum (firstn j (map (fun u => nth d (shp u) 0) (t0 :: ts))) + i) :: ic /\
    in_range (shp t) (ia ++ i :: ic) /\ at_ t' ix = at_ t (ia ++ i :: ic).
Proof.
  intros [CS CA] HF ix R. assert (Hd : (d < length (shp t0))%nat) by (inversion HF as [|? ? F0 _]; subst; apply (same_frame_parts _ _ _ F0)).
  rewrite CS in R. apply in_range_app in R as (ia & i2 & -> & Ra & R2). inversion R2 as [|? p ? ic Hp Rc]; subst.
  assert (La : length ia = d) by (rewrite (in_range_len _ _ Ra), firstn_length; lia).
  destruct (in_block (map (fun t => nth d (shp t) 0) (t0 :: ts)) p) as (j & n & i & E & Hi & Ep); auto.
  { apply Forall_map. eapply Forall_impl; [|exact HF]. intros t Ht. apply (same_frame_parts _ _ _ Ht). }
  rewrite nth_error_map in E. destruct (nth_error (t0 :: ts) j) as [t|] eqn:Et; [|discriminate]. cbn in E. injection E as En.
  exists j, t, i, ia, ic. subst n p. split; [auto|]. split; [auto|]. split; [auto|]. split; [reflexivity|]. split.
  - rewrite Forall_forall in HF. destruct (same_frame_parts _ _ _ (HF t (nth_error_In _ _ Et))) as (ES & _ & _).
    rewrite ES. apply Forall2_app; [exact Ra|]. constructor; [lia|exact Rc].
  - rewrite firstn_map. now apply CA.
Qed.

Lemma alike_frames d x0 xs : alike d x0 xs -> (d < length (shp (tn x0)))%nat -> Forall (fun t => same_frame d (tn x0) t) (tn x0 :: map tn xs).
Proof.
  intros (HR & H0 & HF) Hd. constructor.
  - exists (firstn d (shp (tn x0))), (nth d (shp (tn x0)) 0), (nth d (shp (tn x0)) 0), (skipn (S d) (shp (tn x0))).
    assert (E : shp (tn x0) = firstn d (shp (tn x0)) ++ nth d (shp (tn x0)) 0 :: skipn (S d) (shp (tn x0))).
    { rewrite <- (firstn_skipn d (shp (tn x0))) at 1. f_equal.
      destruct (skipn d (shp (tn x0))) as [|a l] eqn:Es.
      - apply (f_equal (@length _)) in Es. rewrite skipn_length in Es. cbn in Es. lia.
      - f_equal.
        + symmetry. apply nth_error_nth. rewrite <- (Nat.add_0_r d), <- skipn_at, Es. reflexivity.
        + replace (S d) with (1 + d)%nat by lia. rewrite <- skipn_skipn, Es. reflexivity. }
    split; [exact E|]. split; [exact E|]. split; [rewrite firstn_length; lia|]. split; auto.
  - apply Forall_map. eapply Forall_impl; [|exact HF]. cbn. tauto.
Qed.

(** All operands describe their streams with the same dimensions. *)
Lemma alike_aligned d x0 xs x : alike d x0 xs -> (forall q, In q (x0 :: xs) -> aligned q) -> In x (x0 :: xs) ->
  forall bd ld, nth_error (names x0) bd = Some (Some "B"%string) -> nth_error (names x0) ld = Some (Some "L"%string) ->
  exists c rs T, aligned_at x bd ld c rs T.
Proof.
  intros (HR & H0 & HF) HA Hx bd ld HB HL. destruct (HA x Hx) as (bd' & ld' & c & rs & T & A1).
  pose proof (al_ok _ _ _ _ _ _ _ _ _ A1) as SO.
  assert (En : names x = names x0). { destruct Hx as [->|Hx]; [auto|]. rewrite Forall_forall in HF. now apply HF. }
  assert (bd' = bd) by (apply (so_distinct _ _ _ _ _ _ SO _ _ "B"%string); [apply (so_bname _ _ _ _ _ _ SO)|now rewrite En]).
  assert (ld' = ld) by (apply (so_distinct _ _ _ _ _ _ SO _ _ "L"%string); [apply (so_lname _ _ _ _ _ _ SO)|now rewrite En]).
  subst. eauto.
Qed.

Lemma frame_other d (t0 t : @tensor V) k : same_frame d t0 t -> k <> d -> nth_error (shp t) k = nth_error (shp t0) k.
Proof.
  intros (pre & n0 & n & post & -> & -> & HL & _ & _) Nk. subst d.
  destruct (Nat.lt_ge_cases k (length pre)); [now rewrite !nth_error_app1 by lia|].
  rewrite !nth_error_app2 by lia. destruct (k - length pre)%nat eqn:Ek; [lia|reflexivity].
Qed.

Lemma concat_size d (t0 : @tensor V) ts t' k : concatenated d t0 ts t' -> (d < length (shp t0))%nat ->
  length (shp t') = length (shp t0) /\
  nth_error (shp t') d = Some (zsum (map (fun t => nth d (shp t) 0) (t0 :: ts))) /\
  (k <> d -> nth_error (shp t') k = nth_error (shp t0) k).
Proof.
  intros [CS _] Hd. rewrite CS. assert (LF : length (firstn d (shp t0)) = d) by (rewrite firstn_length; lia). split; [|split].
  - rewrite app_length. cbn [length]. rewrite firstn_length, skipn_length. lia.
  - rewrite nth_error_app2 by lia. rewrite LF, Nat.sub_diag. reflexivity.
  - intros Nk. destruct (Nat.lt_ge_cases k d).
    + rewrite nth_error_app1 by lia. now apply firstn_at.
    + rewrite nth_error_app2 by lia. rewrite LF. destruct (k - d)%nat as [|q] eqn:Eq; [lia|]. cbn [nth_error]. rewrite skipn_at. f_equal. lia.
Qed.

Lemma concat_sizes_nonneg d (t0 : @tensor V) ts t' : concatenated d t0 ts t' -> Forall (fun t => same_frame d t0 t) (t0 :: ts) ->
  Forall (fun n => 0 <= n) (shp t0) -> Forall (fun n => 0 <= n) (shp t').
Proof.
  intros [CS _] HF H0. assert (Hd : (d < length (shp t0))%nat) by (inversion HF as [|? ? F0 _]; subst; apply (same_frame_parts _ _ _ F0)).
  rewrite CS. apply Forall_app. rewrite Forall_forall in H0. split.
  - apply Forall_forall. intros n Hn. apply H0. rewrite <- (firstn_skipn d (shp t0)). apply in_or_app. now left.
  - constructor.
    + apply zsum_nonneg_in. intros n Hn. apply in_map_iff in Hn as (t & <- & Ht). rewrite Forall_forall in HF.
      apply (same_frame_parts _ _ _ (HF t Ht)).
    + apply Forall_forall. intros n Hn. apply H0. rewrite <- (firstn_skipn (S d) (shp t0)). apply in_or_app. now right.
Qed.

(** Coordinates of a position with one coordinate replaced. *)
Lemma nth_replaced (ia : list Z) p q ic k : k <> length ia -> nth k (ia ++ p :: ic) 0 = nth k (ia ++ q :: ic) 0.
Proof.
  intros N. destruct (Nat.lt_ge_cases k (length ia)); [now rewrite !app_nth1 by lia|].
  rewrite !app_nth2 by lia. destruct (k - length ia)%nat eqn:E; [lia|reflexivity].
Qed.

(** Two positions in the same block. *)
Lemma same_block ns j j' n n' i i' : Forall (fun n => 0 <= n) ns -> nth_error ns j = Some n -> nth_error ns j' = Some n' ->
  0 <= i < n -> 0 <= i' < n' -> zsum (firstn j ns) + i <= zsum (firstn j' ns) + i' -> (j < j')%nat \/ (j = j' /\ i <= i').
Proof.
  intros HF E E' Hi Hi' H. destruct (lt_eq_lt_dec j j') as [[L|Eq]|L]; [now left| |].
  - right. subst j'. split; [auto|lia].
  - exfalso. pose proof (offsets_mono ns j' j HF L) as M. rewrite (nth_error_nth _ _ 0 E') in M. lia.
Qed.

(** Replacing a coordinate other than time in both positions. *)
Lemma same_replaced ld ia ja p q ic jc : length ia = length ja -> same_but_time ld (ia ++ p :: ic) (ja ++ p :: jc) ->
  same_but_time ld (ia ++ q :: ic) (ja ++ q :: jc).
Proof.
  intros HL HS k Nk. destruct (Nat.eq_dec k (length ia)) as [->|N].
  - rewrite nth_app_here. rewrite HL, nth_app_here. reflexivity.
  - rewrite (nth_replaced ia q p ic k N), (nth_replaced ja q p jc k) by lia. now apply HS.
Qed.

Lemma same_replaced_time ld ia ja p p' q q' ic jc : length ia = ld -> length ja = ld -> same_but_time ld (ia ++ p :: ic) (ja ++ p' :: jc) ->
  same_but_time ld (ia ++ q :: ic) (ja ++ q' :: jc).
Proof.
  intros H1 H2 HS k Nk. rewrite (nth_replaced ia q p ic k) by lia. rewrite (nth_replaced ja q' p' jc k) by lia. now apply HS.
Qed.

(* ---------- along a dimension other than length ---------- *)

(** Concatenation along [d]: each operand comes with the rows its positions have in the result. *)
Lemma concat_aligned d x0 xs y bd ld c' rs' T : d <> ld ->
  Forall (fun t => same_frame d (tn x0) t) (tn x0 :: map tn xs) -> concatenated d (tn x0) (map tn xs) (tn y) ->
  stream_ok y bd ld c' rs' T ->
  (forall j x i ia ic, nth_error (x0 :: xs) j = Some x -> 0 <= i < nth d (shp (tn x)) 0 -> length ia = d ->
     in_range (shp (tn x)) (ia ++ i :: ic) ->
     exists c rs, aligned_at x bd ld c rs T /\
       forall r', nth_error rs' (Z.to_nat (nth bd (ia ++ (zsum (firstn j (map (fun u => nth d (shp u) 0) (tn x0 :: map tn xs))) + i) :: ic) 0)) = Some r' ->
       exists r, nth_error rs (Z.to_nat (nth bd (ia ++ i :: ic) 0)) = Some r /\ rid r = rid r' /\ rlen r = rlen r') ->
  aligned y.
Proof.
  intros Nd HF HC SY HP. exists bd, ld, c', rs', T.
  set (ns := map (fun u => nth d (shp u) 0) (tn x0 :: map tn xs)) in *.
  assert (NN : Forall (fun n => 0 <= n) ns).
  { apply Forall_map. eapply Forall_impl; [|exact HF]. intros t Ht. apply (same_frame_parts _ _ _ Ht). }
  assert (SRC : forall ix, in_range (shp (tn y)) ix -> exists j x i ia ic, nth_error (x0 :: xs) j = Some x /\
     0 <= i < nth d (shp (tn x)) 0 /\ length ia = d /\ ix = ia ++ (zsum (firstn j ns) + i) :: ic /\
     in_range (shp (tn x)) (ia ++ i :: ic) /\ at_ (tn y) ix = at_ (tn x) (ia ++ i :: ic) /\ nth_error ns j = Some (nth d (shp (tn x)) 0)).
  { intros ix R. destruct (concat_source _ _ _ _ HC HF ix R) as (j & t & i & ia & ic & Et & Hi & La & Ex & Ri & Ea).
    change (tn x0 :: map tn xs) with (map tn (x0 :: xs)) in Et. rewrite nth_error_map in Et.
    destruct (nth_error (x0 :: xs) j) as [x|] eqn:Ej; [|discriminate]. cbn in Et. injection Et as <-.
    exists j, x, i, ia, ic. repeat (split; [assumption|]).
    unfold ns. change (tn x0 :: map tn xs) with (map tn (x0 :: xs)). now rewrite !nth_error_map, Ej. }
  constructor; auto.
  - intros ix r' R E. destruct (SRC ix R) as (j & x & i & ia & ic & Ej & Hi & La & -> & Ri & -> & _).
    destruct (HP j x i ia ic Ej Hi La Ri) as (c & rs & [SO AR AO AT] & HR). destruct (HR r' E) as (r & Er & _ & El).
    rewrite (AR _ r Ri Er), El. f_equal. apply nth_replaced. lia.
  - intros ix r' R E. destruct (SRC ix R) as (j & x & i & ia & ic & Ej & Hi & La & -> & Ri & -> & _).
    destruct (HP j x i ia ic Ej Hi La Ri) as (c & rs & [SO AR AO AT] & HR). destruct (HR r' E) as (r & Er & Ed & _).
    intros Hre. rewrite (AO _ r Ri Er Hre). exact Ed.
  - intros ix jx R1 R2 HS HT. destruct (SRC ix R1) as (j & x & i & ia & ic & Ej & Hi & La & -> & Ri & -> & En).
    destruct (SRC jx R2) as (j' & x' & i' & ja & jc & Ej' & Hi' & La' & -> & Ri' & -> & En').
    assert (Eo : zsum (firstn j ns) + i = zsum (firstn j' ns) + i').
    { specialize (HS d Nd). rewrite <- La in HS at 1. rewrite nth_app_here in HS. rewrite <- La' in HS. now rewrite nth_app_here in HS. }
    destruct (same_block ns j j' _ _ i i' NN En En' Hi Hi' ltac:(lia)) as [L|[Ejj _]].
    { exfalso. pose proof (offsets_mono ns j j' NN L) as M. rewrite (nth_error_nth _ _ 0 En) in M. lia. }
    subst j'. assert (x' = x) by congruence. subst x'. assert (i' = i) by lia. subst i'.
    destruct (HP j x i ia ic Ej Hi La Ri) as (c & rs & [SO AR AO AT] & _).
    apply AT; auto.
    + apply (same_replaced ld ia ja (zsum (firstn j ns) + i)); [lia|exact HS].
    + rewrite (nth_replaced ia i (zsum (firstn j ns) + i) ic) by lia. rewrite (nth_replaced ja i (zsum (firstn j ns) + i) jc) by lia. exact HT.
Qed.

Lemma cat_batch_aligned x0 x1 xs dim bd y : (forall x, In x (x0 :: x1 :: xs) -> aligned x) ->
  alike bd x0 (x1 :: xs) -> denotes (length (shp (tn x0))) dim bd -> nth_error (names x0) bd = Some (Some "B"%string) ->
  cat (map OStream (x0 :: x1 :: xs)) dim = Ok (OStream y) -> aligned y.
Proof.
  intros HA HK HD HB E. pose proof (HA x0 (or_introl eq_refl)) as (bd0 & ld & c0 & rs0 & T & A0).
  pose proof (al_ok _ _ _ _ _ _ _ _ _ A0) as S0.
  assert (bd0 = bd) by (apply (so_distinct _ _ _ _ _ _ S0 _ _ "B"%string); [apply (so_bname _ _ _ _ _ _ S0)|auto]). subst bd0.
  pose proof (so_lname _ _ _ _ _ _ S0) as HL.
  assert (Nbl : bd <> ld) by (intros ->; rewrite HB in HL; discriminate).
  pose proof (alike_frames bd x0 (x1 :: xs) HK (proj1 HD)) as HF.
  (* the rows of the operands *)
  assert (HX : exists l : list (bool * list row), Forall2 (fun x p => aligned_at x bd ld (fst p) (snd p) T) (x0 :: x1 :: xs) l).
  { assert (G : forall zs, (forall x, In x zs -> In x (x0 :: x1 :: xs)) ->
      exists l : list (bool * list row), Forall2 (fun x p => aligned_at x bd ld (fst p) (snd p) T) zs l).
    { induction zs as [|x zs IH]; intros Hin; [exists []; constructor|].
      destruct IH as (l & Hl); [intros q Hq; apply Hin; now right|].
      destruct (alike_aligned bd x0 (x1 :: xs) x HK HA (Hin x (or_introl eq_refl)) bd ld HB HL) as (c & rs & T' & A1).
      assert (T' = T).
      { pose proof (so_lsize _ _ _ _ _ _ (al_ok _ _ _ _ _ _ _ _ _ A1)) as E1.
        rewrite (frame_other bd (tn x0) (tn x) ld) in E1; auto.
        - rewrite (so_lsize _ _ _ _ _ _ S0) in E1. congruence.
        - rewrite Forall_forall in HF. apply HF. change (tn x0 :: map tn (x1 :: xs)) with (map tn (x0 :: x1 :: xs)). apply in_map. apply Hin. now left. }
      subst T'. exists ((c, rs) :: l). constructor; auto. }
    apply G. auto. }
  destruct HX as (l & HX).
  assert (HM : map smeta (x0 :: x1 :: xs) = map (fun p => of_rows (fst p) (snd p)) l).
  { clear -HX. induction HX as [|x p zs l A1 HX IH]; [reflexivity|]. cbn [map]. rewrite IH. f_equal. apply (so_meta _ _ _ _ _ _ (al_ok _ _ _ _ _ _ _ _ _ A1)). }
  destruct (cat_batch_streams x0 x1 xs dim bd l HK HD HB HM) as (y' & E' & NN & HC & MM). rewrite E in E'. injection E' as <-.
  assert (Hbd : (bd < length (shp (tn x0)))%nat) by apply HD.
  destruct (concat_size bd (tn x0) (map tn (x1 :: xs)) (tn y) ld HC Hbd) as (CL & CB & CO).
  assert (ZL : map (fun t => nth bd (shp t) 0) (tn x0 :: map tn (x1 :: xs)) = map zlen (map snd l)).
  { change (tn x0 :: map tn (x1 :: xs)) with (map tn (x0 :: x1 :: xs)). clear -HX.
    induction HX as [|x p zs l A1 HX IH]; [reflexivity|]. cbn [map]. rewrite IH. f_equal.
    apply nth_error_nth. apply (so_bsize _ _ _ _ _ _ (al_ok _ _ _ _ _ _ _ _ _ A1)). }
  assert (HIn : forall r, In r (concat (map snd l)) -> 0 <= rlen r <= T).
  { intros r Hr. apply in_concat in Hr as (rs & Hrs & Hr). apply in_map_iff in Hrs as (p & <- & Hp).
    apply In_nth_error in Hp as (j & Hj).
    assert (exists x, aligned_at x bd ld (fst p) (snd p) T) as (x & A1).
    { clear -HX Hj. revert j Hj. induction HX as [|x q zs l A1 HX IH]; intros [|j] Hj; try discriminate; cbn in Hj.
      - injection Hj as <-. eauto.
      - eapply IH; eauto. }
    pose proof (so_nonneg _ _ _ _ _ _ (al_ok _ _ _ _ _ _ _ _ _ A1)) as H1. pose proof (so_fit _ _ _ _ _ _ (al_ok _ _ _ _ _ _ _ _ _ A1)) as H2.
    unfold nonneg in H1. rewrite Forall_forall in H1, H2. specialize (H1 r Hr). specialize (H2 r Hr). cbn in *. lia. }
  apply (concat_aligned bd x0 (x1 :: xs) y bd ld (forallb fst l) (concat (map snd l)) T Nbl HF HC).
  - constructor.
    + rewrite NN, CL. apply (so_rank _ _ _ _ _ _ S0).
    + rewrite NN. apply (so_distinct _ _ _ _ _ _ S0).
    + apply (concat_sizes_nonneg bd (tn x0) (map tn (x1 :: xs))); auto. apply (so_sizes _ _ _ _ _ _ S0).
    + now rewrite NN.
    + now rewrite NN.
    + rewrite CB, ZL, concat_zlen. reflexivity.
    + rewrite CO by auto. apply (so_lsize _ _ _ _ _ _ S0).
    + exact MM.
    + apply Forall_forall. intros r Hr. apply HIn in Hr. cbn. lia.
    + apply Forall_forall. intros r Hr. apply HIn in Hr. cbn. lia.
  - intros j x i ia ic Ej Hi La Ri.
    assert (exists p, nth_error l j = Some p /\ aligned_at x bd ld (fst p) (snd p) T) as (p & Ep & A1).
    { clear -HX Ej. revert j Ej. induction HX as [|x0' q zs l A1 HX IH]; intros [|j] Ej; try discriminate; cbn in Ej.
      - injection Ej as <-. exists q. auto.
      - destruct (IH j Ej) as (p & ? & ?). exists p. auto. }
    exists (fst p), (snd p). split; [auto|]. intros r' Hr'. exists r'. split; [|auto].
    rewrite <- La in Hr' |- *. rewrite nth_app_here in *. rewrite La in Hr'. rewrite ZL in Hr'.
    pose proof (so_bsize _ _ _ _ _ _ (al_ok _ _ _ _ _ _ _ _ _ A1)) as Eb. rewrite (nth_error_nth _ _ 0 Eb) in Hi.
    rewrite <- (nth_concat (map snd l) j (snd p) (Z.to_nat i)).
    + rewrite Z2Nat.id by lia. exact Hr'.
    + now rewrite nth_error_map, Ep.
    + unfold zlen in Hi. lia.
Qed.

Lemma cat_other_aligned x0 x1 xs dim d nm y : (forall x, In x (x0 :: x1 :: xs) -> aligned x) ->
  alike d x0 (x1 :: xs) -> denotes (length (shp (tn x0))) dim d -> nth_error (names x0) d = Some nm ->
  nm <> Some "B"%string -> nm <> Some "L"%string -> (forall x, In x (x1 :: xs) -> smeta x = smeta x0) ->
  cat (map OStream (x0 :: x1 :: xs)) dim = Ok (OStream y) -> aligned y.
Proof.
  intros HA HK HD HN NB NL HM E. pose proof (HA x0 (or_introl eq_refl)) as (bd & ld & c0 & rs0 & T & A0).
  pose proof (al_ok _ _ _ _ _ _ _ _ _ A0) as S0. pose proof S0 as [HR HDs Hn HB HL HBs HLs HMx Hnn Hfit].
  assert (Nb : d <> bd) by (intros ->; congruence). assert (Nl : d <> ld) by (intros ->; congruence).
  destruct (cat_other_setup x0 x1 xs dim d nm HK HD HN NB NL) as (t' & HC & E'). rewrite E in E'.
  destruct (cat_same_meta _ _); [|discriminate]. cbn [bind] in E'. injection E' as ->.
  pose proof (alike_frames d x0 (x1 :: xs) HK (proj1 HD)) as HF. pose proof (proj1 HD) as Hd.
  pose proof (fun k => concat_size d (tn x0) (map tn (x1 :: xs)) t' k HC Hd) as CSZ.
  apply (concat_aligned d x0 (x1 :: xs) (mkSt t' (names x0) (smeta x0)) bd ld c0 rs0 T Nl HF HC).
  - constructor; cbn [tn names smeta]; auto.
    + destruct (CSZ ld) as (CL & _). rewrite CL. exact HR.
    + apply (concat_sizes_nonneg d (tn x0) (map tn (x1 :: xs))); auto.
    + destruct (CSZ bd) as (_ & _ & CO). rewrite CO by auto. exact HBs.
    + destruct (CSZ ld) as (_ & _ & CO). rewrite CO by auto. exact HLs.
  - intros j x i ia ic Ej Hi La Ri. pose proof (nth_error_In _ _ Ej) as Hx. exists c0, rs0. split.
    + apply (aligned_any real owner time); [now apply HA|].
      assert (HF' : same_frame d (tn x0) (tn x)).
      { rewrite Forall_forall in HF. apply HF. change (tn x0 :: map tn (x1 :: xs)) with (map tn (x0 :: x1 :: xs)). now apply in_map. }
      destruct (HA x Hx) as (b1 & l1 & c1 & rs1 & T1 & A1). pose proof (al_ok _ _ _ _ _ _ _ _ _ A1) as S1.
      assert (En : names x = names x0). { destruct Hx as [->|Hx]; [auto|]. destruct HK as (_ & _ & HK). rewrite Forall_forall in HK. now apply HK. }
      assert (Em : smeta x = smeta x0) by (destruct Hx as [->|Hx]; auto).
      constructor.
      * apply (so_rank _ _ _ _ _ _ S1).
      * apply (so_distinct _ _ _ _ _ _ S1).
      * apply (so_sizes _ _ _ _ _ _ S1).
      * now rewrite En.
      * now rewrite En.
      * rewrite (frame_other d (tn x0) (tn x) bd HF') by auto. exact HBs.
      * rewrite (frame_other d (tn x0) (tn x) ld HF') by auto. exact HLs.
      * now rewrite Em.
      * exact Hnn.
      * exact Hfit.
    + intros r' Hr'. exists r'. split; [|auto]. rewrite <- Hr'. f_equal. f_equal. apply nth_replaced. lia.
Qed.

(* ---------- along length ---------- *)

(** Rows from the fields of the metadata. *)
Lemma fields_rows m : wf m -> exists c rs, m = of_rows c rs /\ length rs = length (ids m).
Proof.
  intros W. destruct (wf_of_rows m W) as (c & rs & E). exists c, rs. split; [auto|]. rewrite E. cbn. now rewrite map_length.
Qed.

Lemma cat_length_aligned x0 x1 xs dim ld y : (forall x, In x (x0 :: x1 :: xs) -> aligned x) ->
  alike ld x0 (x1 :: xs) -> denotes (length (shp (tn x0))) dim ld -> nth_error (names x0) ld = Some (Some "L"%string) ->
  lens (smeta x0) <> [] -> in_order real time ld (x0 :: x1 :: xs) ->
  cat (map OStream (x0 :: x1 :: xs)) dim = Ok (OStream y) -> aligned y.
Proof.
  intros HA HK HD HL Hne HO E. pose proof (HA x0 (or_introl eq_refl)) as (bd & ld0 & c0 & rs0 & T0 & A0).
  pose proof (al_ok _ _ _ _ _ _ _ _ _ A0) as S0.
  assert (ld0 = ld) by (apply (so_distinct _ _ _ _ _ _ S0 _ _ "L"%string); [apply (so_lname _ _ _ _ _ _ S0)|auto]). subst ld0.
  pose proof (so_bname _ _ _ _ _ _ S0) as HB.
  assert (Nbl : bd <> ld) by (intros ->; rewrite HB in HL; discriminate).
  pose proof (alike_frames ld x0 (x1 :: xs) HK (proj1 HD)) as HF.
  pose proof (proj1 HK) as HR0.
  assert (Hne0 : rs0 <> []). { intros ->. rewrite (so_meta _ _ _ _ _ _ S0) in Hne. cbn in Hne. congruence. }
  set (ops := map OStream (x0 :: x1 :: xs)) in *.
  assert (INX : forall x, In (OStream x) ops -> In x (x0 :: x1 :: xs)).
  { intros x Hx. apply in_map_iff in Hx as (q & Eq & Hq). now injection Eq as <-. }
  assert (EN : forall x, In x (x0 :: x1 :: xs) -> names x = names x0).
  { intros x [->|Hx]; [auto|]. destruct HK as (_ & _ & HK). rewrite Forall_forall in HK. now apply HK. }
  assert (FR : forall x, In x (x0 :: x1 :: xs) -> same_frame ld (tn x0) (tn x)).
  { intros x Hx. rewrite Forall_forall in HF. apply HF. change (tn x0 :: map tn (x1 :: xs)) with (map tn (x0 :: x1 :: xs)). now apply in_map. }
  assert (XS : forall x, In x (x0 :: x1 :: xs) -> exists c rs T, aligned_at x bd ld c rs T /\ zlen rs = zlen rs0).
  { intros x Hx. destruct (alike_aligned ld x0 (x1 :: xs) x HK HA Hx bd ld HB HL) as (c & rs & T & A1). exists c, rs, T. split; [auto|].
    pose proof (so_bsize _ _ _ _ _ _ (al_ok _ _ _ _ _ _ _ _ _ A1)) as E1.
    rewrite (frame_other ld (tn x0) (tn x) bd (FR x Hx)) in E1 by auto. rewrite (so_bsize _ _ _ _ _ _ S0) in E1. congruence. }
  assert (AL : along_length ld (names x0) ops).
  { split; [|split; [exists x0; now left|split; [exact HL|]]].
    - intros x Hx. apply INX in Hx. split; [now apply EN|]. destruct (XS x Hx) as (c & rs & T & A1 & EZ).
      exists bd, c, rs, T. split; [apply (al_ok _ _ _ _ _ _ _ _ _ A1)|]. intros ->. destruct rs0; [congruence|]. unfold zlen in EZ. cbn in EZ. lia.
    - intros o o' Ho Ho'. apply in_map_iff in Ho as (a & <- & Ha). apply in_map_iff in Ho' as (b & <- & Hb). cbn [op_tensor].
      pose proof (FR a Ha) as (pa & n0 & na & qa & E0 & Ea & La & _ & Hna). pose proof (FR b Hb) as (pb & n1 & nb & qb & E1 & Eb & Lb & _ & Hnb).
      assert (pa = pb /\ qa = qb) as [<- <-].
      { rewrite E0 in E1. assert (pa = pb).
        { rewrite <- (firstn_all pa), <- (firstn_all pb). replace (length pb) with (length pa) by lia.
          pose proof (f_equal (firstn (length pa)) E1) as G. rewrite !firstn_app in G.
          replace (length pa - length pa)%nat with O in G by lia. replace (length pa - length pb)%nat with O in G by lia.
          cbn [firstn] in G. now rewrite !app_nil_r in G. }
        subst pb. apply app_inv_head in E1. injection E1 as _ <-. auto. }
      exists pa, na, nb, qa. auto. }
  assert (HDn : denotes (length (names x0)) dim ld) by (now rewrite HR0).
  assert (SM : map smeta (streams_of ops) = smeta x0 :: map smeta (x1 :: xs)) by (unfold ops; now rewrite streams_of_map).
  destruct (cat_length_setup (OStream x0) (OStream x1) (map OStream xs) dim ld (names x0) AL HDn) as (EC & t1 & ET & _).
  change (OStream x0 :: OStream x1 :: map OStream xs) with ops in EC, ET.
  assert (COMP : cat_compatible (smeta x0 :: map smeta (x1 :: xs))).
  { pose proof E as E2. rewrite EC in E2. destruct (cat_padding_check (removelast ops)) as [u|]; [|discriminate]. cbn [bind] in E2.
    rewrite ET in E2. cbn [bind] in E2. rewrite SM in E2.
    destruct (cat_length (smeta x0 :: map smeta (x1 :: xs))) as [m|] eqn:Em; [|discriminate]. cbn [map] in Em |- *. exact (cat_length_compat _ _ _ _ Em). }
  assert (FULL : forall o b, In o (removelast ops) -> (b < length (ids (smeta x0)))%nat -> op_full ld b o).
  { intros o b Ho Hb. destruct o as [x|t]; [|exact I].
    destruct (Z.eq_dec (nth b (lens (smeta x)) 0) (nth ld (shp (tn x)) 0)) as [D|D]; [exact D|]. exfalso.
    destruct (cat_length_refused (OStream x0) (OStream x1) (map OStream xs) dim ld (names x0) AL HDn) as [RF _].
    change (OStream x0 :: OStream x1 :: map OStream xs) with ops in RF. rewrite E in RF.
    discriminate RF. exists x, b. split; [auto|]. split; [|exact D].
    apply removelast_In, INX in Ho. destruct (XS x Ho) as (c & rs & T & A1 & EZ).
    rewrite (so_meta _ _ _ _ _ _ (al_ok _ _ _ _ _ _ _ _ _ A1)). rewrite (so_meta _ _ _ _ _ _ S0) in Hb. cbn in *. rewrite map_length in *. unfold zlen in EZ. lia. }
  destruct (cat_length_mixed (OStream x0) (OStream x1) (map OStream xs) dim ld (names x0) (smeta x0) (map smeta (x1 :: xs)) AL HDn SM COMP FULL)
    as (y' & E' & NN & HC & I1 & I2 & I3 & I4 & I5 & I6).
  change (OStream x0 :: OStream x1 :: map OStream xs) with ops in E', I6. rewrite E in E'. injection E' as <-.
  cbn [op_tensor] in HC. change (map op_tensor (OStream x1 :: map OStream xs)) with (map op_tensor (map (@OStream V) (x1 :: xs))) in HC.
  rewrite map_op_streams in HC. unfold ops in I6. rewrite map_op_streams in I6.
  destruct (concat_size ld (tn x0) (map tn (x1 :: xs)) (tn y) bd HC (proj1 HD)) as (CL & CD & CO).
  set (ns := map (fun u => nth ld (shp u) 0) (tn x0 :: map tn (x1 :: xs))) in *.
  assert (NNs : Forall (fun n => 0 <= n) ns).
  { apply Forall_map. eapply Forall_impl; [|exact HF]. intros t Ht. apply (same_frame_parts _ _ _ Ht). }
  assert (SAME : forall x, In x (x0 :: x1 :: xs) -> ids (smeta x) = ids (smeta x0)).
  { intros x Hx. apply In_nth_error in Hx as ([|k] & Hk); [cbn in Hk; congruence|]. destruct COMP as (H1 & _).
    apply (H1 (S k) (smeta x) (smeta x0)); [|reflexivity|lia].
    change (smeta x0 :: map smeta (x1 :: xs)) with (map smeta (x0 :: x1 :: xs)). now rewrite nth_error_map, Hk. }
  (* rows of the result *)
  assert (LI : length (ids (smeta x0)) = length rs0) by (rewrite (so_meta _ _ _ _ _ _ S0); cbn; now rewrite map_length).
  assert (LAST : exists x, In x (x0 :: x1 :: xs) /\ smeta x = last (map smeta (x1 :: xs)) (smeta x0)).
  { exists (last (x1 :: xs) x0). split.
    - right. destruct (exists_last (l:=x1 :: xs)) as (l & a & El); [discriminate|]. rewrite El, last_last. apply in_or_app. right. now left.
    - clear. generalize x1. induction xs as [|b l IH]; intros a; [reflexivity|]. cbn [map last] in *. apply IH. }
  destruct LAST as (xl & HxL & ELast). rewrite <- ELast in I3, I4.
  destruct (XS xl HxL) as (cl & rl & Tl & AL1 & EZl). pose proof (al_ok _ _ _ _ _ _ _ _ _ AL1) as SL1.
  assert (W : wf (smeta y)).
  { rewrite (so_meta _ _ _ _ _ _ SL1) in I3, I4. rewrite (so_meta _ _ _ _ _ _ S0) in I1, I2, I5. unfold zlen in EZl.
    unfold wf. rewrite I1, I2, I3, I4. split; [|split; [|split]].
    - cbn. now rewrite !map_length.
    - cbn. rewrite !map_length. lia.
    - exact I5.
    - cbn. destruct cl; [|exact I]. rewrite !map_length. lia. }
  destruct (fields_rows _ W) as (c' & rs' & EY & LY). rewrite I1, LI in LY.
  assert (ROW : forall b r', nth_error rs' b = Some r' -> (b < length rs0)%nat /\ rid r' = nth b (ids (smeta x0)) ""%string /\ rlen r' = nth b (lens (smeta y)) 0).
  { intros b r' Hb. assert (b < length rs')%nat by (apply nth_error_Some; congruence). split; [lia|]. split.
    - rewrite <- I1, EY. cbn. symmetry. apply nth_error_nth. now rewrite nth_error_map, Hb.
    - rewrite EY. cbn. symmetry. apply nth_error_nth. now rewrite nth_error_map, Hb. }
  assert (OL : forall x b c rs T r, In x (x0 :: x1 :: xs) -> aligned_at x bd ld c rs T -> nth_error rs b = Some r ->
            op_len ld b (OStream x) = rlen r /\ rid r = nth b (ids (smeta x0)) ""%string).
  { intros x b c rs T r Hx A1 Hr. pose proof (so_meta _ _ _ _ _ _ (al_ok _ _ _ _ _ _ _ _ _ A1)) as EM. split.
    - cbn [op_len]. rewrite EM. cbn. apply nth_error_nth. now rewrite nth_error_map, Hr.
    - rewrite <- (SAME x Hx), EM. cbn. symmetry. apply nth_error_nth. now rewrite nth_error_map, Hr. }
  assert (SRC : forall ix, in_range (shp (tn y)) ix -> exists j x i ia ic, nth_error (x0 :: x1 :: xs) j = Some x /\
     0 <= i < nth ld (shp (tn x)) 0 /\ length ia = ld /\ ix = ia ++ (zsum (firstn j ns) + i) :: ic /\
     in_range (shp (tn x)) (ia ++ i :: ic) /\ at_ (tn y) ix = at_ (tn x) (ia ++ i :: ic) /\ nth_error ns j = Some (nth ld (shp (tn x)) 0)).
  { intros ix R. destruct (concat_source _ _ _ _ HC HF ix R) as (j & t & i & ia & ic & Et & Hi & La & Ex & Ri & Ea).
    change (tn x0 :: map tn (x1 :: xs)) with (map tn (x0 :: x1 :: xs)) in Et. rewrite nth_error_map in Et.
    destruct (nth_error (x0 :: x1 :: xs) j) as [x|] eqn:Ej; [|discriminate]. cbn in Et. injection Et as <-.
    exists j, x, i, ia, ic. repeat (split; [assumption|]).
    unfold ns. change (tn x0 :: map tn (x1 :: xs)) with (map tn (x0 :: x1 :: xs)). now rewrite !nth_error_map, Ej. }
  (* what row b of the result is at a position of operand j *)
  assert (PIECE : forall j x i ia ic r', nth_error (x0 :: x1 :: xs) j = Some x -> 0 <= i < nth ld (shp (tn x)) 0 -> length ia = ld ->
     in_range (shp (tn x)) (ia ++ i :: ic) -> nth_error rs' (Z.to_nat (nth bd (ia ++ i :: ic) 0)) = Some r' ->
     exists c rs T r, aligned_at x bd ld c rs T /\ nth_error rs (Z.to_nat (nth bd (ia ++ i :: ic) 0)) = Some r /\
       rid r = rid r' /\ (zsum (firstn j ns) + i <? rlen r') = (i <? rlen r)).
  { intros j x i ia ic r' Ej Hi La Ri Er. pose proof (nth_error_In _ _ Ej) as Hx. destruct (XS x Hx) as (c & rs & T & A1 & EZ).
    destruct (ROW _ _ Er) as (Hb & Hid & Hlen). set (b := Z.to_nat (nth bd (ia ++ i :: ic) 0)) in *.
    destruct (nth_error rs b) as [r|] eqn:Erb; [|apply nth_error_None in Erb; unfold zlen in EZ; lia].
    destruct (OL x b c rs T r Hx A1 Erb) as [O1 O2]. exists c, rs, T, r. split; [auto|]. split; [auto|]. split; [congruence|].
    destruct (I6 b) as [_ I7]; [lia|]. specialize (I7 j (OStream x) i). cbn [op_tensor] in I7.
    rewrite O1 in I7. rewrite Hlen. rewrite <- firstn_map in I7.
    assert (G : zsum (firstn j ns) + i < nth b (lens (smeta y)) 0 <-> i < rlen r).
    { apply I7; [|exact Hi]. now rewrite nth_error_map, Ej. }
    lia. }
  exists bd, ld, c', rs', (zsum ns). constructor.
  - constructor.
    + rewrite NN, CL. exact HR0.
    + rewrite NN. apply (so_distinct _ _ _ _ _ _ S0).
    + apply (concat_sizes_nonneg ld (tn x0) (map tn (x1 :: xs))); auto. apply (so_sizes _ _ _ _ _ _ S0).
    + now rewrite NN.
    + now rewrite NN.
    + rewrite CO by auto. rewrite (so_bsize _ _ _ _ _ _ S0). unfold zlen. now rewrite LY.
    + exact CD.
    + exact EY.
    + apply Forall_forall. intros r' Hr'. apply In_nth_error in Hr' as (b & Hb). destruct (ROW b r' Hb) as (Hb0 & _ & ->).
      destruct (I6 b) as [-> _]; [lia|]. apply zsum_nonneg_in. intros n Hn. apply in_map_iff in Hn as (o & <- & Ho).
      apply in_map_iff in Ho as (x & <- & Hx). destruct (XS x Hx) as (c & rs & T & A1 & EZ).
      destruct (nth_error rs b) as [r|] eqn:Erb; [|apply nth_error_None in Erb; unfold zlen in EZ; lia].
      destruct (OL x b c rs T r Hx A1 Erb) as [-> _]. pose proof (so_nonneg _ _ _ _ _ _ (al_ok _ _ _ _ _ _ _ _ _ A1)) as H1.
      unfold nonneg in H1. rewrite Forall_forall in H1. apply (H1 r). eapply nth_error_In; eauto.
    + apply Forall_forall. intros r' Hr'. apply In_nth_error in Hr' as (b & Hb). destruct (ROW b r' Hb) as (Hb0 & _ & ->).
      destruct (I6 b) as [-> _]; [lia|]. unfold ns. change (tn x0 :: map tn (x1 :: xs)) with (map tn (x0 :: x1 :: xs)). rewrite !map_map.
      assert (G : forall zs, (forall x, In x zs -> In x (x0 :: x1 :: xs)) ->
        zsum (map (fun x => op_len ld b (OStream x)) zs) <= zsum (map (fun x => nth ld (shp (tn x)) 0) zs)).
      { induction zs as [|x zs IH]; intros Hin; [cbn; lia|]. cbn [map].
        change (zsum (op_len ld b (OStream x) :: map (fun x => op_len ld b (OStream x)) zs)) with (op_len ld b (OStream x) + zsum (map (fun x => op_len ld b (OStream x)) zs)).
        change (zsum (nth ld (shp (tn x)) 0 :: map (fun x => nth ld (shp (tn x)) 0) zs)) with (nth ld (shp (tn x)) 0 + zsum (map (fun x => nth ld (shp (tn x)) 0) zs)).
        specialize (IH (fun q Hq => Hin q (or_intror Hq))). pose proof (Hin x (or_introl eq_refl)) as Hx.
        destruct (XS x Hx) as (c & rs & T & A1 & EZ).
        destruct (nth_error rs b) as [r|] eqn:Erb; [|apply nth_error_None in Erb; unfold zlen in EZ; lia].
        destruct (OL x b c rs T r Hx A1 Erb) as [-> _].
        rewrite (nth_error_nth _ _ 0 (so_lsize _ _ _ _ _ _ (al_ok _ _ _ _ _ _ _ _ _ A1))).
        pose proof (so_fit _ _ _ _ _ _ (al_ok _ _ _ _ _ _ _ _ _ A1)) as H1. rewrite Forall_forall in H1. specialize (H1 r (nth_error_In _ _ Erb)). cbn in H1. lia. }
      apply G. auto.
  - intros ix r' R Er. destruct (SRC ix R) as (j & x & i & ia & ic & Ej & Hi & La & -> & Ri & -> & _).
    rewrite (nth_replaced ia _ i ic bd) in Er by lia.
    destruct (PIECE j x i ia ic r' Ej Hi La Ri Er) as (c & rs & T & r & [SO AR AO AT] & Erb & _ & El).
    assert (NL : forall p, nth ld (ia ++ p :: ic) 0 = p) by (intros p; rewrite <- La; apply nth_app_here).
    rewrite (AR _ r Ri Erb), !NL. now rewrite El.
  - intros ix r' R Er. destruct (SRC ix R) as (j & x & i & ia & ic & Ej & Hi & La & -> & Ri & -> & _).
    rewrite (nth_replaced ia _ i ic bd) in Er by lia.
    destruct (PIECE j x i ia ic r' Ej Hi La Ri Er) as (c & rs & T & r & [SO AR AO AT] & Erb & Ed & _).
    intros Hre. now rewrite (AO _ r Ri Erb Hre).
  - intros ix jx R1 R2 HS HT H1 H2. destruct (SRC ix R1) as (j & x & i & ia & ic & Ej & Hi & La & -> & Ri & E1 & En).
    destruct (SRC jx R2) as (j' & x' & i' & ja & jc & Ej' & Hi' & La' & -> & Ri' & E2 & En'). rewrite E1 in H1 |- *. rewrite E2 in H2 |- *.
    assert (HT' : zsum (firstn j ns) + i <= zsum (firstn j' ns) + i').
    { clear -HT La La'. rewrite <- La in HT at 1. rewrite nth_app_here in HT. rewrite <- La' in HT at 1. now rewrite nth_app_here in HT. }
    pose proof (same_replaced_time ld ia ja _ _ i i' ic jc La La' HS) as HS'.
    destruct (same_block ns j j' _ _ i i' NNs En En' Hi Hi' HT') as [L|[Ejj Hii]].
    + exact (HO j j' x x' _ _ Ej Ej' L Ri Ri' HS' H1 H2).
    + subst j'. assert (x' = x) by congruence. subst x'. destruct (XS x (nth_error_In _ _ Ej)) as (c & rs & T & [SO AR AO AT] & _).
      assert (NL : forall p, nth ld (ia ++ p :: ic) 0 = p) by (intros p; rewrite <- La; apply nth_app_here).
      assert (NL' : forall p, nth ld (ja ++ p :: jc) 0 = p) by (intros p; rewrite <- La'; apply nth_app_here).
      apply AT; auto. now rewrite NL, NL'.
Qed.

End AlignCat.

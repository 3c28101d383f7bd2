(** Proofs about making StreamTensors and taking them apart. *)

From Coq Require Import String List ZArith Bool Lia Sorted.
From Coq Require Import ZifyBool.
From Verif Require Import Py Meta MetaSpec MetaProofs Named NamedSpec NamedProofs NamedIndexProofs NamedShapeProofs ConvMoreProofs Gather GatherSpec GatherProofs FullIndex Dispatch Build BuildSpec ReduceSpec ReduceProofs.
Import ListNotations.
Open Scope Z_scope.

(* ---- names *)

Lemma refines_iff old : forall new, refines old new = true <-> more_names old new.
Proof.
  unfold more_names. induction old as [|o old IH]; intros [|n new].
  - split; [constructor|reflexivity].
  - split; [discriminate|intros H; inversion H].
  - split; [destruct o; discriminate|intros H; inversion H].
  - destruct o as [a|]; cbn [refines].
    + destruct n as [b|].
      * rewrite andb_true_iff, IH, String.eqb_eq. split.
        -- intros [<- H]. constructor; auto.
        -- intros H. inversion H as [|? ? ? ? [E|E] H']; subst; [discriminate|]. split; [congruence|auto].
      * split; [discriminate|]. intros H. inversion H as [|? ? ? ? [E|E] H']; subst; discriminate.
    + rewrite IH. split; [intros H; constructor; auto|]. intros H. now inversion H.
Qed.

Lemma torch_refine_iff old new r : torch_refine old new = Ok r <-> r = new /\ more_names old new /\ names_distinct new.
Proof.
  unfold torch_refine. destruct (refines old new && negb (names_dup new)) eqn:E.
  - apply andb_true_iff in E as [E1 E2]. apply negb_true_iff in E2. apply refines_iff in E1. apply names_dup_false in E2.
    split; [intros [= <-]; auto|]. intros (-> & _). reflexivity.
  - split; [discriminate|]. intros (_ & M & D). apply refines_iff in M. apply names_dup_false in D. rewrite M, D in E. discriminate.
Qed.

Lemma more_from_none nd l : length l = nd -> more_names (repeat None nd) l.
Proof. intros <-. unfold more_names. induction l; constructor; auto. Qed.

Lemma more_refl l : more_names l l.
Proof. unfold more_names. induction l; constructor; auto. Qed.

Lemma refine_well nd l : well_named nd l -> refine_names nd l = Ok l.
Proof.
  intros [L D]. unfold refine_names. apply names_dup_false in D. unfold dname in *. rewrite L, Nat.eqb_refl, D. reflexivity.
Qed.

Lemma torch_rename_well nd l : well_named nd l -> torch_rename nd l = Ok l.
Proof.
  intros W. pose proof W as [L D]. unfold torch_rename. destruct l as [|[s|] [|b l]]; try (now apply refine_well). simpl in L. subst. reflexivity.
Qed.

Section Proofs.
Context {V : Type}.
Implicit Types (x y : @stensor V) (t : @tensor V).

Lemma as_stream_tensor_iff (d : @bdata V) m nms y :
  as_stream_tensor d m nms = Ok y <->
  tn y = data_of d /\
  match nms with None => names y = names_of d | Some l => names y = l /\ more_names (names_of d) l /\ names_distinct l end /\
  match m with Some m' => smeta y = m' | None => exists x, d = BStream x /\ smeta y = smeta x end.
Proof.
  unfold as_stream_tensor. split.
  - intros H. apply bind_ok in H as (n & E1 & H). apply bind_ok in H as (m' & E2 & H). injection H as <-. cbn [tn names smeta].
    split; [reflexivity|]. split.
    + destruct nms as [l|]; [apply torch_refine_iff in E1; exact E1|congruence].
    + destruct m as [m0|]; [congruence|]. destruct d as [t|t n'|x]; try discriminate. exists x. split; congruence.
  - intros (E1 & E2 & E3).
    replace (match nms with None => Ok (names_of d) | Some l => torch_refine (names_of d) l end) with (@Ok (list dname) (names y)).
    + cbn [bind]. replace (match m with Some m' => Ok m' | None => match d with BStream x => Ok (smeta x) | _ => Err AttributeError end end)
        with (@Ok meta (smeta y)).
      * cbn [bind]. rewrite <- E1. now destruct y.
      * destruct m as [m0|]; [congruence|]. destruct E3 as (x & -> & ->). reflexivity.
    + symmetry. destruct nms as [l|]; [|congruence]. apply torch_refine_iff. exact E2.
Qed.

Lemma round_trip keep x : well_named (length (shp (tn x))) (names x) ->
  let '((t, n), m, nms) := st_decouple keep x in
  as_stream_tensor (BTensor t n) (Some m) (Some nms) = Ok x /\ stream_tensor (BTensor t n) m nms = Ok x.
Proof.
  intros W. unfold st_decouple, plain_of. split.
  - apply as_stream_tensor_iff. cbn [data_of names_of]. split; [reflexivity|]. split; [|reflexivity]. split; [reflexivity|]. split; [|apply W].
    destruct keep; [apply more_refl|]. apply more_from_none. apply W.
  - unfold stream_tensor. cbn [data_of]. unfold ndim. rewrite (refine_well _ _ W). cbn [bind]. now destruct x.
Qed.

Lemma refine_names_iff nd l r : refine_names nd l = Ok r <-> r = l /\ well_named nd l.
Proof.
  unfold refine_names. destruct (Nat.eqb (length l) nd && negb (names_dup l)) eqn:E.
  - apply andb_true_iff in E as [E1 E2]. apply Nat.eqb_eq in E1. apply negb_true_iff in E2. apply names_dup_false in E2.
    split; [intros [= <-]; split; [reflexivity|split; auto]|]. intros [-> _]. reflexivity.
  - split; [discriminate|]. intros (_ & W1 & W2). apply names_dup_false in W2. unfold dname in *. rewrite W1, W2, Nat.eqb_refl in E. discriminate.
Qed.

Lemma stream_tensor_iff (d : @bdata V) m nms y :
  stream_tensor d m nms = Ok y <->
  tn y = data_of d /\ smeta y = m /\
  (well_named (length (shp (data_of d))) nms /\ names y = nms \/ nms = [None] /\ names y = repeat None (length (shp (data_of d)))).
Proof.
  unfold stream_tensor, ndim. set (nd := length (shp (data_of d))). split.
  - intros H. apply bind_ok in H as (n & E & H). injection H as <-. cbn [tn names smeta]. split; [reflexivity|]. split; [reflexivity|].
    destruct (refine_names nd nms) as [n'|e] eqn:R.
    + injection E as <-. apply refine_names_iff in R as [-> W]. auto.
    + unfold torch_rename in E. destruct nms as [|[a|] [|b l]]; try congruence. injection E as <-. auto.
  - intros (E1 & E2 & [[W E3]|[-> E3]]).
    + rewrite (refine_well _ _ W). cbn [bind]. rewrite <- E1, <- E2, <- E3. now destruct y.
    + destruct (refine_names nd [None]) as [n'|e] eqn:R; cbn [torch_rename bind].
      * apply refine_names_iff in R as [-> [L _]]. simpl in L. rewrite <- L in E3. simpl in E3. rewrite <- E1, <- E2, <- E3. now destruct y.
      * rewrite <- E1, <- E2, <- E3. now destruct y.
Qed.

Lemma frexp_ok man ex x bd ld c rs T : stream_ok x bd ld c rs T ->
  exists y z, frexp man ex x = Ok (y, z) /\ stream_ok y bd ld c rs T /\ stream_ok z bd ld c rs T /\
    names y = names x /\ names z = names x /\ each man (tn x) (tn y) /\ each ex (tn x) (tn z).
Proof.
  intros SO. assert (W : well_named (ndim (tn x)) (names x)) by (split; apply SO).
  unfold frexp. rewrite (torch_rename_well _ _ W). cbn [bind].
  eexists _, _. split; [reflexivity|]. destruct SO.
  split; [constructor; assumption|]. split; [constructor; assumption|]. split; [reflexivity|]. split; [reflexivity|].
  split; (split; [reflexivity|]; reflexivity).
Qed.

(* ---- masked_select *)

Lemma lpad_length r s : (length s <= r)%nat -> length (lpad r s) = r.
Proof. intros. unfold lpad. rewrite app_length, repeat_length. lia. Qed.

Lemma bcast_size_iff a b c : bcast_size a b = Ok c <-> bcast1 a b c.
Proof.
  unfold bcast_size. destruct (a =? b) eqn:E1; [|destruct (a =? 1) eqn:E2; [|destruct (b =? 1) eqn:E3]].
  - apply Z.eqb_eq in E1. subst b. split; [intros [= <-]; constructor|]. intros H; inversion H; subst; reflexivity.
  - apply Z.eqb_eq in E2. subst a. split; [intros [= <-]; constructor|]. intros H; inversion H; subst; try reflexivity; lia.
  - apply Z.eqb_eq in E3. subst b. split; [intros [= <-]; constructor|]. intros H; inversion H; subst; try reflexivity; lia.
  - split; [discriminate|]. intros H; inversion H; subst; lia.
Qed.

Inductive bcast_eq : list Z -> list Z -> list Z -> Prop :=
| BE_nil : bcast_eq [] [] []
| BE_cons (i j k : Z) a b c : bcast1 i j k -> bcast_eq a b c -> bcast_eq (i :: a) (j :: b) (k :: c).

Lemma bcast_sizes_iff a : forall b c, bcast_sizes a b = Ok c <-> bcast_eq a b c.
Proof.
  induction a as [|x a IH]; intros [|y b] c; cbn [bcast_sizes].
  - split; [intros [= <-]; constructor|intros H; inversion H; reflexivity].
  - split; [discriminate|intros H; inversion H].
  - split; [discriminate|intros H; inversion H].
  - split.
    + intros H. apply bind_ok in H as (n & E & H). apply bind_ok in H as (r & E' & H). injection H as <-.
      constructor; [now apply bcast_size_iff|now apply IH].
    + intros H. inversion H; subst. rewrite (proj2 (bcast_size_iff x y k)) by auto. cbn [bind]. rewrite (proj2 (IH b c0)) by auto. reflexivity.
Qed.

Lemma bcast_eq_app a b c a' b' c' : bcast_eq a b c -> bcast_eq a' b' c' -> bcast_eq (a ++ a') (b ++ b') (c ++ c').
Proof. induction 1; simpl; auto. intros. constructor; auto. Qed.

Lemma bcast_eq_rev a b c : bcast_eq a b c -> bcast_eq (rev a) (rev b) (rev c).
Proof. induction 1; simpl; [constructor|]. apply bcast_eq_app; auto. constructor; auto. constructor. Qed.

Lemma bcast_eq_ones_l b : bcast_eq (repeat 1 (length b)) b b.
Proof. induction b; constructor; auto. constructor. Qed.
Lemma bcast_eq_ones_r a : bcast_eq a (repeat 1 (length a)) a.
Proof. induction a; constructor; auto. constructor. Qed.

Lemma bcast_rev_pad a b c : bcast_rev a b c -> let r := Nat.max (length a) (length b) in
  bcast_eq (a ++ repeat 1 (r - length a)) (b ++ repeat 1 (r - length b)) c.
Proof.
  induction 1 as [b|a|x y z a b c H _ IH]; cbn zeta.
  - simpl. rewrite Nat.sub_diag, Nat.sub_0_r, app_nil_r. apply bcast_eq_ones_l.
  - simpl. rewrite Nat.max_0_r, Nat.sub_diag, Nat.sub_0_r, app_nil_r. apply bcast_eq_ones_r.
  - simpl. constructor; auto.
Qed.

Lemma pad_bcast_rev a : forall b c, let r := Nat.max (length a) (length b) in
  bcast_eq (a ++ repeat 1 (r - length a)) (b ++ repeat 1 (r - length b)) c -> Forall (fun n => True) c -> bcast_rev a b c.
Proof.
  induction a as [|x a IH]; intros [|y b] c; cbn zeta; simpl; intros H _.
  - inversion H. constructor.
  - rewrite Nat.sub_diag, app_nil_r in H. inversion H as [|? ? z ? ? c0 H1 H2]; subst.
    assert (E : c0 = b).
    { clear - H2. revert c0 H2. induction b as [|n b IHb]; intros c0 H2; simpl in H2; inversion H2 as [|? ? z ? ? c1 B1 B2]; subst; auto.
      f_equal; [inversion B1; subst; auto|auto]. }
    assert (z = y) by (inversion H1; subst; auto). subst. constructor.
  - rewrite Nat.sub_diag, app_nil_r in H. inversion H as [|? ? z ? ? c0 H1 H2]; subst.
    assert (E : c0 = a).
    { clear - H2. revert c0 H2. induction a as [|n a IHa]; intros c0 H2; simpl in H2; inversion H2 as [|? ? z ? ? c1 B1 B2]; subst; auto.
      f_equal; [inversion B1; subst; auto|auto]. }
    assert (z = x) by (inversion H1; subst; auto). subst. constructor.
  - inversion H as [|? ? z ? ? c0 H1 H2]; subst. constructor; auto. apply (IH b c0); auto. apply Forall_forall. auto.
Qed.

Lemma rev_repeat {A} (a : A) n : rev (repeat a n) = repeat a n.
Proof. induction n; simpl; auto. rewrite IHn. symmetry. apply repeat_cons. Qed.

Lemma bcast_lpad a b c : let r := Nat.max (length a) (length b) in
  bcast_sizes (lpad r a) (lpad r b) = Ok c <-> broadcasts a b c.
Proof.
  cbn zeta. rewrite bcast_sizes_iff. unfold broadcasts, lpad. set (r := Nat.max (length a) (length b)). split.
  - intros H. apply bcast_eq_rev in H. rewrite !rev_app_distr, !rev_repeat in H. apply pad_bcast_rev; [|apply Forall_forall; auto].
    cbn zeta. rewrite !rev_length. exact H.
  - intros H. apply bcast_rev_pad in H. cbn zeta in H. rewrite !rev_length in H. apply bcast_eq_rev in H.
    rewrite !rev_app_distr, !rev_repeat, !rev_involutive in H. exact H.
Qed.

Lemma bcast_eq_length a b c : bcast_eq a b c -> length a = length c /\ length b = length c.
Proof. induction 1 as [|x y z a b c _ _ IH]; simpl; [auto|lia]. Qed.

Lemma bcast_ix_seen s : forall p, bcast_ix s p = seen_at s p.
Proof. unfold bcast_ix. induction s as [|n s IH]; intros [|i p]; simpl; auto. f_equal. apply IH. Qed.

Lemma seen_at_app s1 : forall s2 p, (length s1 <= length p)%nat ->
  skipn (length s1) (seen_at (s1 ++ s2) p) = seen_at s2 (skipn (length s1) p).
Proof.
  induction s1 as [|n s1 IH]; intros s2 p L; simpl in *; auto. destruct p as [|i p]; simpl in *; [lia|]. apply IH. lia.
Qed.

Lemma bread_seen {A} r (t : @tensor A) p : length p = r -> (ndim t <= r)%nat -> bread r t p = seen t p.
Proof.
  intros L H. unfold bread, seen, ndim in *. rewrite bcast_ix_seen. f_equal. rewrite L. unfold lpad.
  pose proof (seen_at_app (repeat 1 (r - length (shp t))) (shp t) p) as E. rewrite repeat_length in E. apply E. lia.
Qed.

(** The positions of a shape in order. *)
Lemma StronglySorted_app {A} (R : A -> A -> Prop) l1 l2 : StronglySorted R l1 -> StronglySorted R l2 ->
  (forall a b, In a l1 -> In b l2 -> R a b) -> StronglySorted R (l1 ++ l2).
Proof.
  induction 1 as [|a l1 S1 IH F]; simpl; auto. intros S2 H. constructor.
  - apply IH; auto.
  - apply Forall_app. split; auto. apply Forall_forall. auto.
Qed.

Lemma StronglySorted_map_mono {A B} (R : A -> A -> Prop) (R' : B -> B -> Prop) (f : A -> B) l :
  StronglySorted R l -> (forall a b, In a l -> In b l -> R a b -> R' (f a) (f b)) -> StronglySorted R' (map f l).
Proof.
  induction 1 as [|a l S IH F]; simpl; intros H; constructor.
  - apply IH. intros; apply H; auto.
  - apply Forall_forall. intros b I. apply in_map_iff in I as (b' & <- & I). apply H; auto. rewrite Forall_forall in F. auto.
Qed.

Lemma seq_sorted n : forall a, StronglySorted (fun i j => i < j)%nat (seq a n).
Proof.
  induction n; intros a; simpl; constructor; auto. apply Forall_forall. intros b I. apply in_seq in I. lia.
Qed.

Lemma all_positions_sorted s : StronglySorted (before s) (all_positions s).
Proof.
  induction s as [|n s IH]; [repeat constructor|]. cbn [all_positions].
  assert (G : forall ps, StronglySorted Z.lt ps -> (forall p, In p ps -> 0 <= p) ->
    StronglySorted (before (n :: s)) (flat_map (fun i => map (cons i) (all_positions s)) ps)).
  { induction 1 as [|p ps S' IH' F]; simpl; intros P; [constructor|]. apply StronglySorted_app.
    - apply (StronglySorted_map_mono (before s)); auto. intros a b _ _. unfold before. simpl. lia.
    - apply IH'. intros q I. apply P. auto.
    - intros a b I J. apply in_map_iff in I as (q & <- & I). apply in_flat_map in J as (p' & Ip & J). apply in_map_iff in J as (q' & <- & J).
      unfold before. simpl. apply all_positions_In in I, J. apply block_pos_range in I, J. rewrite Forall_forall in F. specialize (F _ Ip). nia. }
  apply G.
  - apply (StronglySorted_map_mono (fun i j => i < j)%nat); [apply seq_sorted|]. intros. lia.
  - intros p I. apply In_positions in I. lia.
Qed.

Lemma StronglySorted_filter {A} (R : A -> A -> Prop) (P : A -> bool) l : StronglySorted R l -> StronglySorted R (filter P l).
Proof.
  induction 1 as [|a l S IH F]; simpl; [constructor|]. destruct (P a); auto. constructor; auto.
  apply Forall_forall. intros b I. apply filter_In in I as [I _]. rewrite Forall_forall in F. auto.
Qed.

Lemma masked_ok t (m : @tensor bool) s : broadcasts (shp t) (shp m) s ->
  exists qs, torch_masked_select t m = Ok (map (seen t) qs) /\ StronglySorted (before s) qs /\
    (forall q, In q qs <-> in_range s q /\ seen m q = true).
Proof.
  intros B. unfold torch_masked_select. unfold ndim. rewrite (proj2 (bcast_lpad (shp t) (shp m) s) B). cbn [bind].
  set (r := Nat.max (length (shp t)) (length (shp m))).
  assert (LS : length s = r).
  { apply bcast_lpad in B. apply bcast_sizes_iff in B. apply bcast_eq_length in B as [B _]. rewrite <- B. apply lpad_length. lia. }
  assert (RT' : forall q, in_range s q -> bread r t q = seen t q).
  { intros q Q. apply bread_seen; [|unfold ndim; lia]. rewrite (in_range_length _ _ Q). exact LS. }
  assert (RM : forall q, in_range s q -> bread r m q = seen m q).
  { intros q Q. apply bread_seen; [|unfold ndim; lia]. rewrite (in_range_length _ _ Q). exact LS. }
  exists (filter (bread r m) (all_positions s)). split; [|split].
  - f_equal. apply map_ext_in. intros q I. apply filter_In in I as [I _]. apply all_positions_In in I. auto.
  - apply StronglySorted_filter, all_positions_sorted.
  - intros q. rewrite filter_In, all_positions_In. split.
    + intros [Q E]. split; auto. now rewrite <- RM.
    + intros [Q E]. split; auto. now rewrite RM.
Qed.

Lemma masked_fails t (m : @tensor bool) : (forall s, ~ broadcasts (shp t) (shp m) s) -> exists e, torch_masked_select t m = Err e.
Proof.
  intros N. unfold torch_masked_select. destruct (bcast_sizes _ _) as [s|e] eqn:E; [|now exists e].
  exfalso. apply (N s). apply bcast_lpad. exact E.
Qed.

Lemma method_masked x bd ld c rs T (m : @tensor bool) s : stream_ok x bd ld c rs T -> broadcasts (shp (tn x)) (shp m) s ->
  exists y, method_masked_select x m = Ok (DStream y) /\ smeta y = smeta x /\ not_stream y.
Proof.
  intros SO B. destruct (masked_ok _ _ _ B) as (qs & E & _). unfold method_masked_select, torch_function.
  replace (handler_of "Tensor.masked_select") with HDefault by (vm_compute; reflexivity).
  unfold default_valid, super_call. cbn [map raw_of]. rewrite E. cbn [bind].
  assert (NS : forall y, names y = [None] -> @not_stream V y).
  { intros y Ey bd' ld' c' rs' T' SO'. pose proof (so_bname _ _ _ _ _ _ SO') as N. rewrite Ey in N. destruct bd' as [|[|?]]; discriminate. }
  destruct (map (seen (tn x)) qs) as [|v0 l]; cbn; (eexists; split; [reflexivity|]; split; [reflexivity|]; apply NS; reflexivity).
Qed.

End Proofs.

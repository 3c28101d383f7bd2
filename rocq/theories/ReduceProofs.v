(** Proofs about functions without a rule of their own. *)

From Coq Require Import String List ZArith Bool Lia QArith Lqa.
From Coq Require Import ZifyBool.
From Verif Require Import Py Meta MetaSpec MetaProofs Named NamedSpec NamedProofs NamedIndexProofs NamedGetProofs GatherProofs Dispatch Reduce ReduceSpec.
Import ListNotations.
Open Scope Z_scope.

Section Proofs.
Context {V : Type}.
Implicit Types (x y : @stensor V) (t : @tensor V).

(* ---- the default rule *)

Lemma along_default name (f : list V -> list V) x r : handler_of name = HDefault ->
  call_along name f x r =
  match torch_along f (tn x) (names x) r with
  | Ok (RTen t n) => Ok (DStream (mkSt t n (smeta x)))
  | Ok _ => call_along name f x r
  | Err e => Err e
  end.
Proof.
  intros H. unfold call_along, torch_function. rewrite H. unfold default_valid, super_call. cbn [map raw_of].
  unfold torch_along. destruct (resolve _ _ r) as [d|e]; reflexivity.
Qed.

Lemma reduce_default name (op : list V -> V) x dims keep : handler_of name = HDefault ->
  call_reduce name op x dims keep =
  match torch_reduce op (tn x) (names x) dims keep with
  | Ok (RTen t n) => Ok (DStream (mkSt t n (smeta x)))
  | Ok _ => call_reduce name op x dims keep
  | Err e => Err e
  end.
Proof.
  intros H. unfold call_reduce, torch_function. rewrite H. unfold default_valid, super_call. cbn [map raw_of].
  unfold torch_reduce. destruct (mapM _ dims) as [ds|e]; [|reflexivity]. cbn [bind]. destruct (nat_dup ds); reflexivity.
Qed.

(* ---- references to dimensions *)

Lemma resolve_refers nd nms r k : length nms = nd -> names_distinct nms -> refers nms r k -> resolve nd nms r = Ok k.
Proof.
  intros L D H. destruct r as [d|s]; simpl in *.
  - apply norm_dim_denotes. unfold dname in *. now rewrite <- L.
  - now rewrite (names_index_ok _ _ _ H D).
Qed.

Lemma resolve_inv nd nms r k : length nms = nd -> resolve nd nms r = Ok k -> refers nms r k.
Proof.
  intros L H. destruct r as [d|s]; simpl in *.
  - unfold dname in *. rewrite L. now apply norm_dim_denotes.
  - destruct (names_index _ _) as [k'|e] eqn:E; [|discriminate]. injection H as <-. now apply names_index_sound.
Qed.

Lemma refers_lt nms r k : refers nms r k -> (k < length nms)%nat.
Proof. destruct r as [d|s]; simpl; intros H; [apply H|]. apply nth_error_Some. congruence. Qed.

Lemma mapM_resolve nd nms dims ds : length nms = nd -> names_distinct nms -> Forall2 (refers nms) dims ds ->
  mapM (resolve nd nms) dims = Ok ds.
Proof.
  intros L D H. induction H as [|r k dims ds Hr _ IH]; [reflexivity|].
  rewrite mapM_cons, (resolve_refers _ _ _ _ L D Hr). cbn [bind]. now rewrite IH.
Qed.

Lemma nat_dup_false l : nat_dup l = false <-> NoDup l.
Proof.
  induction l as [|a l IH]; simpl; [split; auto using NoDup_nil|].
  rewrite orb_false_iff, IH. split.
  - intros [E N]. constructor; auto. intros I. enough (existsb (Nat.eqb a) l = true) by congruence.
    apply existsb_exists. exists a. split; auto. apply Nat.eqb_refl.
  - intros N. inversion N; subst. split; auto. destruct (existsb _ _) eqn:E; auto.
    apply existsb_exists in E as (b & I & Eb). apply Nat.eqb_eq in Eb. subst. contradiction.
Qed.

(* ---- along a dimension *)

Lemma map_nth_self {A} (l : list A) (g : nat -> A) n : length l = n -> (forall i, (i < n)%nat -> nth_error l i = Some (g i)) ->
  map g (seq 0 n) = l.
Proof.
  intros L H. apply nth_ext with (d := g O) (d' := g O); [now rewrite map_length, seq_length|].
  intros i Hi. rewrite map_length, seq_length in Hi. rewrite map_nth, seq_nth by auto. symmetry. apply nth_error_nth. simpl. now apply H.
Qed.

Lemma along_line f t d n ia ic : @keeps_length V f -> nth d (shp t) 0 = n -> length ia = d ->
  line (t_along f t d) n ia ic = f (line t n ia ic).
Proof.
  intros K N L. unfold line, positions. rewrite map_map. cbn [t_along at_].
  apply map_nth_self.
  - now rewrite K, !map_length, seq_length.
  - intros i Hi.
    assert (E : t_line t d (ia ++ Z.of_nat i :: ic) = line t n ia ic).
    { unfold t_line, line, size. rewrite N. apply map_ext. intros p. f_equal. rewrite <- L. apply list_set_app. }
    unfold positions in E. rewrite E. rewrite <- L, nth_app_here, Nat2Z.id. unfold line, positions.
    apply nth_error_nth'. now rewrite K, !map_length, seq_length.
Qed.

Lemma along_ok name f x bd ld c rs T r k : handler_of name = HDefault -> stream_ok x bd ld c rs T -> refers (names x) r k ->
  call_along name f x r = Ok (DStream (mkSt (t_along f (tn x) k) (names x) (smeta x))).
Proof.
  intros H SO R. rewrite along_default by auto. unfold torch_along, ndim.
  rewrite (resolve_refers _ _ _ _ (so_rank _ _ _ _ _ _ SO) (so_distinct _ _ _ _ _ _ SO) R). reflexivity.
Qed.

Lemma along_stream_ok f x bd ld c rs T k : stream_ok x bd ld c rs T ->
  stream_ok (mkSt (t_along f (tn x) k) (names x) (smeta x)) bd ld c rs T.
Proof. intros []. constructor; assumption. Qed.

Lemma line_firstn t m n ia ic : 0 <= m <= n -> line t m ia ic = firstn (Z.to_nat m) (line t n ia ic).
Proof.
  intros H. unfold line, positions. rewrite !firstn_map. f_equal. f_equal.
  replace (Z.to_nat n) with (Z.to_nat m + (Z.to_nat n - Z.to_nat m))%nat by lia. rewrite seq_app.
  rewrite firstn_app, seq_length, Nat.sub_diag, app_nil_r. symmetry. apply firstn_all2. rewrite seq_length. lia.
Qed.

Lemma causal_firstn f (l : list V) m : causal f -> (m <= length l)%nat -> firstn m (f l) = f (firstn m l).
Proof.
  intros C H. pose proof (C (firstn m l) (skipn m l)) as E. rewrite firstn_skipn in E. rewrite firstn_length, Nat.min_l in E by lia. exact E.
Qed.

Lemma line_length t n ia ic : length (line t n ia ic) = Z.to_nat n.
Proof. unfold line. now rewrite map_length, positions_length. Qed.

Lemma causal_alone f x bd ld c rs T : keeps_length f -> causal f -> stream_ok x bd ld c rs T ->
  each_alone f bd ld rs x (mkSt (t_along f (tn x) ld) (names x) (smeta x)).
Proof.
  intros K C SO ia ic b r L HB HR. cbn [tn].
  assert (N : nth ld (shp (tn x)) 0 = T) by (apply nth_error_nth; apply (so_lsize _ _ _ _ _ _ SO)).
  assert (0 <= rlen r <= T).
  { split.
    - pose proof (so_nonneg _ _ _ _ _ _ SO) as NN. unfold nonneg in NN. rewrite Forall_forall in NN. apply NN. now apply nth_error_In in HR.
    - pose proof (so_fit _ _ _ _ _ _ SO) as NN. rewrite Forall_forall in NN. apply NN. now apply nth_error_In in HR. }
  rewrite (line_firstn _ (rlen r) T) by auto. rewrite along_line by auto.
  rewrite (line_firstn (tn x) (rlen r) T) by auto. apply causal_firstn; auto. rewrite line_length. lia.
Qed.

(* ---- over dimensions *)

Definition proj_keep (red : list bool) (l : list Z) : list Z :=
  map (fun p : bool * Z => if fst p then 0 else snd p) (combine red l).

Lemma NoDup_app_disj {A} (l1 l2 : list A) : NoDup l1 -> NoDup l2 -> (forall a, In a l1 -> In a l2 -> False) -> NoDup (l1 ++ l2).
Proof.
  induction l1 as [|a l1 IH]; simpl; auto. intros N1 N2 D. inversion N1; subst. constructor.
  - rewrite in_app_iff. intros [I|I]; [contradiction|]. apply (D a); auto.
  - apply IH; auto. intros b I J. apply (D b); auto.
Qed.

Lemma NoDup_flat_cons (ps : list Z) (qs : list (list Z)) : NoDup ps -> NoDup qs ->
  NoDup (flat_map (fun p => map (cons p) qs) ps).
Proof.
  intros NP NQ. induction NP as [|p ps Hp NP IH]; simpl; [constructor|].
  apply NoDup_app_disj; auto.
  - apply FinFun.Injective_map_NoDup; auto. intros a b E. congruence.
  - intros q I J. apply in_map_iff in I as (q' & <- & _). apply in_flat_map in J as (p' & Ip & J).
    apply in_map_iff in J as (q'' & E & _). injection E as -> ->. contradiction.
Qed.

Lemma In_positions n p : In p (positions n) <-> 0 <= p < n.
Proof.
  unfold positions. rewrite in_map_iff. split.
  - intros (i & <- & I). apply in_seq in I. lia.
  - intros H. exists (Z.to_nat p). split; [lia|]. apply in_seq. lia.
Qed.

Lemma NoDup_positions n : NoDup (positions n).
Proof. unfold positions. apply FinFun.Injective_map_NoDup; [intros a b E; lia|apply seq_NoDup]. Qed.

Lemma in_flat_cons (ps : list Z) (qs : list (list Z)) q :
  In q (flat_map (fun p => map (cons p) qs) ps) <-> exists p q', q = p :: q' /\ In p ps /\ In q' qs.
Proof.
  rewrite in_flat_map. split.
  - intros (p & I & J). apply in_map_iff in J as (q' & <- & J). eauto.
  - intros (p & q' & -> & I & J). exists p. split; auto. apply in_map_iff. eauto.
Qed.

Lemma fiber_drop red : forall s ix, length red = length s -> in_range (left_over red s) ix ->
  NoDup (t_fiber false red s ix) /\ (forall q, In q (t_fiber false red s ix) <-> in_range s q /\ left_over red q = ix).
Proof.
  induction red as [|b red IH]; intros [|n s] ix L R; try discriminate.
  - inversion R; subst. split; [repeat constructor; simpl; tauto|]. intros q. simpl. split.
    + intros [<-|[]]. split; [constructor|reflexivity].
    + intros [H _]. inversion H. auto.
  - injection L as L. destruct b; cbn [t_fiber left_over] in *.
    + destruct (IH s ix L R) as [N I]. split; [apply NoDup_flat_cons; auto; apply NoDup_positions|].
      intros q. rewrite in_flat_cons. split.
      * intros (p & q' & -> & Hp & Hq). apply In_positions in Hp. apply I in Hq as [Hq E]. split; [constructor; auto|exact E].
      * intros [H E]. inversion H as [|? p ? q' Hp Hq]; subst. exists p, q'. rewrite I. split; auto. split; [now apply In_positions|auto].
    + inversion R as [|? i ? ix' Hi R']; subst. cbn [hd tl]. destruct (IH s ix' L R') as [N I].
      split; [apply FinFun.Injective_map_NoDup; auto; intros a b E; congruence|].
      intros q. rewrite in_map_iff. split.
      * intros (q' & <- & Hq). apply I in Hq as [Hq E]. split; [constructor; auto|]. simpl. now f_equal.
      * intros [H E]. inversion H as [|? p ? q' Hp Hq]; subst. simpl in E. injection E as -> E. exists q'. split; auto. apply I. auto.
Qed.

Lemma fiber_keep red : forall s ix, length red = length s -> in_range (ones red s) ix ->
  NoDup (t_fiber true red s ix) /\ (forall q, In q (t_fiber true red s ix) <-> in_range s q /\ proj_keep red q = ix).
Proof.
  unfold proj_keep. induction red as [|b red IH]; intros [|n s] ix L R; try discriminate.
  - inversion R; subst. split; [repeat constructor; simpl; tauto|]. intros q. simpl. split.
    + intros [<-|[]]. split; [constructor|reflexivity].
    + intros [H _]. inversion H. auto.
  - injection L as L. destruct b; cbn [t_fiber ones] in *; inversion R as [|? i ? ix' Hi R']; subst; cbn [hd tl]; destruct (IH s ix' L R') as [N I].
    + split; [apply NoDup_flat_cons; auto; apply NoDup_positions|].
      intros q. rewrite in_flat_cons. split.
      * intros (p & q' & -> & Hp & Hq). apply In_positions in Hp. apply I in Hq as [Hq E]. split; [constructor; auto|].
        simpl. f_equal; [lia|exact E].
      * intros [H E]. inversion H as [|? p ? q' Hp Hq]; subst. simpl in E. injection E as _ E. exists p, q'. rewrite I.
        split; auto. split; [now apply In_positions|auto].
    + split; [apply FinFun.Injective_map_NoDup; auto; intros a b E; congruence|].
      intros q. rewrite in_map_iff. split.
      * intros (q' & <- & Hq). apply I in Hq as [Hq E]. split; [constructor; auto|]. simpl. now f_equal.
      * intros [H E]. inversion H as [|? p ? q' Hp Hq]; subst. simpl in E. injection E as -> E. exists q'. split; auto. apply I. auto.
Qed.

(** The flags of the dimensions from [a] on. *)
Lemma left_over_others {A} (P : nat -> bool) (dft : A) (l : list A) : forall a,
  left_over (map P (seq a (length l))) l = map (fun k => nth (k - a) l dft) (filter (fun k => negb (P k)) (seq a (length l))).
Proof.
  induction l as [|v l IH]; intros a; [reflexivity|]. cbn [length seq map filter left_over].
  assert (E : left_over (map P (seq (S a) (length l))) l =
    map (fun k => nth (k - a) (v :: l) dft) (filter (fun k => negb (P k)) (seq (S a) (length l)))).
  { rewrite IH. apply map_ext_in. intros k I. apply filter_In in I as [I _]. apply in_seq in I.
    replace (k - a)%nat with (S (k - S a)) by lia. reflexivity. }
  destruct (P a); cbn [negb left_over map]; [exact E|]. rewrite E, Nat.sub_diag. reflexivity.
Qed.

Lemma left_over_dims {A} (dft : A) (l : list A) nd ds : length l = nd ->
  left_over (dim_flags nd ds) l = map (fun k => nth k l dft) (others nd ds).
Proof.
  intros <-. unfold dim_flags, others. rewrite (left_over_others _ dft). apply map_ext. intros k. now rewrite Nat.sub_0_r.
Qed.

Lemma keep_others (P : nat -> bool) (w : Z) (l : list Z) : forall a,
  map (fun p : bool * Z => if fst p then w else snd p) (combine (map P (seq a (length l))) l) =
  map (fun k => if P k then w else nth (k - a) l 0) (seq a (length l)).
Proof.
  induction l as [|v l IH]; intros a; [reflexivity|]. cbn [length seq map combine fst snd]. f_equal.
  - now rewrite Nat.sub_diag.
  - rewrite IH. apply map_ext_in. intros k I. apply in_seq in I. replace (k - a)%nat with (S (k - S a)) by lia. reflexivity.
Qed.

Lemma ones_eq red : forall s, length red = length s -> ones red s = map (fun p : bool * Z => if fst p then 1 else snd p) (combine red s).
Proof.
  induction red as [|b red IH]; intros [|n s] L; try discriminate; [reflexivity|]. injection L as L.
  destruct b; simpl; f_equal; auto.
Qed.

Lemma keep_dims (w : Z) (l : list Z) nd ds : length l = nd ->
  map (fun p : bool * Z => if fst p then w else snd p) (combine (dim_flags nd ds) l) =
  map (fun k => if existsb (Nat.eqb k) ds then w else nth k l 0) (seq 0 nd).
Proof.
  intros <-. unfold dim_flags. rewrite (keep_others (fun k => existsb (Nat.eqb k) ds)). apply map_ext. intros k. now rewrite Nat.sub_0_r.
Qed.

Lemma dim_flags_length nd ds : length (dim_flags nd ds) = nd.
Proof. unfold dim_flags. now rewrite map_length, seq_length. Qed.

Lemma reduce_combined op t ds : combined op ds t (t_reduce op t (dim_flags (ndim t) ds) false).
Proof.
  unfold combined, ndim. cbn [t_reduce shp at_]. split; [now apply left_over_dims|].
  intros ix R. destruct (fiber_drop (dim_flags (length (shp t)) ds) (shp t) ix (dim_flags_length _ _) R) as [N I].
  eexists. split; [reflexivity|]. split; [exact N|]. intros q. rewrite I. split.
  - intros [H E]. split; auto. rewrite <- E. symmetry. apply left_over_dims. now apply in_range_length.
  - intros [H E]. split; auto. rewrite <- E. apply left_over_dims. now apply in_range_length.
Qed.

Lemma reduce_combined_keep op t ds : combined_keep op ds t (t_reduce op t (dim_flags (ndim t) ds) true).
Proof.
  unfold combined_keep, ndim. cbn [t_reduce shp at_]. rewrite ones_eq by apply dim_flags_length. split; [now apply keep_dims|].
  intros ix R. rewrite <- ones_eq in R by apply dim_flags_length.
  destruct (fiber_keep (dim_flags (length (shp t)) ds) (shp t) ix (dim_flags_length _ _) R) as [N I].
  eexists. split; [reflexivity|]. split; [exact N|]. intros q. rewrite I. unfold proj_keep. split.
  - intros [H E]. split; auto. rewrite <- E. symmetry. apply keep_dims. now apply in_range_length.
  - intros [H E]. split; auto. rewrite <- E. apply keep_dims. now apply in_range_length.
Qed.

Lemma reduce_ok name op x bd ld c rs T dims ds keep : handler_of name = HDefault -> stream_ok x bd ld c rs T ->
  Forall2 (refers (names x)) dims ds -> NoDup ds ->
  call_reduce name op x dims keep =
  Ok (DStream (let red := match ds with [] => repeat true (ndim (tn x)) | _ => dim_flags (ndim (tn x)) ds end in
               mkSt (t_reduce op (tn x) red keep) (if keep then names x else left_over red (names x)) (smeta x))).
Proof.
  intros H SO R ND. rewrite reduce_default by auto. unfold torch_reduce, ndim.
  rewrite (mapM_resolve _ _ _ _ (so_rank _ _ _ _ _ _ SO) (so_distinct _ _ _ _ _ _ SO) R). cbn [bind].
  rewrite (proj2 (nat_dup_false ds) ND). reflexivity.
Qed.

Lemma In_others nd ds k : In k (others nd ds) <-> (k < nd)%nat /\ ~ In k ds.
Proof.
  unfold others. rewrite filter_In, in_seq, negb_true_iff. split.
  - intros [A B]. split; [lia|]. intros I. enough (existsb (Nat.eqb k) ds = true) by congruence.
    apply existsb_exists. exists k. split; auto. apply Nat.eqb_refl.
  - intros [A B]. split; [lia|]. destruct (existsb _ _) eqn:E; auto.
    apply existsb_exists in E as (j & I & Ej). apply Nat.eqb_eq in Ej. subst. contradiction.
Qed.

Lemma existsb_nat k ds : existsb (Nat.eqb k) ds = true <-> In k ds.
Proof.
  rewrite existsb_exists. split.
  - intros (j & I & E). apply Nat.eqb_eq in E. now subst.
  - intros I. exists k. split; auto. apply Nat.eqb_refl.
Qed.

Lemma nth_error_at {A} (l : list A) (ks : list nat) dft j k a : nth_error ks j = Some k -> nth_error l k = Some a ->
  nth_error (map (fun k => nth k l dft) ks) j = Some a.
Proof. intros H E. rewrite nth_error_map, H. simpl. f_equal. now apply nth_error_nth. Qed.

Lemma at_inv {A} (l : list A) (ks : list nat) dft j a : (forall k, In k ks -> (k < length l)%nat) ->
  nth_error (map (fun k => nth k l dft) ks) j = Some a -> exists k, nth_error ks j = Some k /\ nth_error l k = Some a.
Proof.
  intros B H. rewrite nth_error_map in H. destruct (nth_error ks j) as [k|] eqn:E; [|discriminate]. injection H as <-.
  exists k. split; auto. apply nth_error_nth'. apply B. now apply nth_error_In in E.
Qed.

Lemma others_NoDup nd ds : NoDup (others nd ds).
Proof. apply NoDup_filter, seq_NoDup. Qed.

Lemma reduce_stream_ok op x bd ld c rs T ds : stream_ok x bd ld c rs T -> ~ In bd ds -> ~ In ld ds -> forall bd' ld',
  nth_error (others (length (names x)) ds) bd' = Some bd -> nth_error (others (length (names x)) ds) ld' = Some ld ->
  stream_ok (mkSt (t_reduce op (tn x) (dim_flags (ndim (tn x)) ds) false) (left_over (dim_flags (ndim (tn x)) ds) (names x)) (smeta x))
    bd' ld' c rs T.
Proof.
  intros SO NB NL bd' ld' HB HL. destruct SO as [R D S B L BS LS M NN F].
  unfold ndim. unfold dname in *. rewrite R in HB, HL.
  assert (LO : left_over (dim_flags (length (shp (tn x))) ds) (names x) = map (fun k => nth k (names x) None) (others (length (shp (tn x))) ds))
    by (now apply left_over_dims).
  assert (LS' : left_over (dim_flags (length (shp (tn x))) ds) (shp (tn x)) = map (fun k => nth k (shp (tn x)) 0) (others (length (shp (tn x))) ds))
    by (now apply left_over_dims).
  constructor; cbn [tn names smeta shp t_reduce]; unfold dname in *; rewrite ?LO, ?LS'; auto.
  - now rewrite !map_length.
  - intros i j s H1 H2.
    apply (at_inv (names x) (others (length (shp (tn x))) ds) None) in H1 as (k1 & A1 & B1); [|intros k I; apply In_others in I; unfold dname; rewrite R; apply I].
    apply (at_inv (names x) (others (length (shp (tn x))) ds) None) in H2 as (k2 & A2 & B2); [|intros k I; apply In_others in I; unfold dname; rewrite R; apply I].
    assert (k1 = k2) by (eapply D; eauto). subst k2.
    eapply NoDup_nth_error; [apply (others_NoDup (length (shp (tn x))) ds)| |congruence].
    apply nth_error_Some. congruence.
  - apply Forall_forall. intros n I. apply in_map_iff in I as (k & <- & I). apply In_others in I as [I _].
    rewrite Forall_forall in S. apply S. now apply nth_In.
  - eapply nth_error_at; eauto.
  - eapply nth_error_at; eauto.
  - eapply nth_error_at; eauto.
  - eapply nth_error_at; eauto.
Qed.

Lemma keep_size (t : @tensor V) ds k n : nth_error (shp t) k = Some n ->
  nth_error (ones (dim_flags (ndim t) ds) (shp t)) k = Some (if existsb (Nat.eqb k) ds then 1 else n).
Proof.
  intros H. unfold ndim. rewrite ones_eq by apply dim_flags_length. rewrite keep_dims by auto.
  assert (k < length (shp t))%nat by (apply nth_error_Some; congruence).
  rewrite nth_error_map. rewrite (nth_error_nth' _ O) by (now rewrite seq_length). rewrite seq_nth by auto. simpl.
  f_equal. destruct (existsb _ _); auto. now apply nth_error_nth.
Qed.

Lemma reduce_keep_ok op x bd ld c rs T ds : stream_ok x bd ld c rs T -> ~ In bd ds -> ~ In ld ds ->
  stream_ok (mkSt (t_reduce op (tn x) (dim_flags (ndim (tn x)) ds) true) (names x) (smeta x)) bd ld c rs T.
Proof.
  intros SO NB NL. destruct SO as [R D S B L BS LS M NN F].
  assert (NI : forall k, ~ In k ds -> existsb (Nat.eqb k) ds = false).
  { intros k N. destruct (existsb _ _) eqn:E; auto. apply existsb_nat in E. contradiction. }
  constructor; cbn [tn names smeta shp t_reduce]; auto.
  - unfold ndim. rewrite ones_eq, map_length, combine_length, dim_flags_length by apply dim_flags_length. unfold dname in *. lia.
  - apply Forall_forall. intros n I. apply In_nth_error in I as (k & E).
    destruct (nth_error (shp (tn x)) k) as [m|] eqn:Em.
    + rewrite (keep_size _ _ _ _ Em) in E. injection E as <-. destruct (existsb _ _); [lia|]. rewrite Forall_forall in S. apply S. now apply nth_error_In in Em.
    + exfalso. apply nth_error_None in Em. assert (k < length (ones (dim_flags (ndim (tn x)) ds) (shp (tn x))))%nat by (apply nth_error_Some; congruence).
      unfold ndim in *. rewrite ones_eq, map_length, combine_length, dim_flags_length in H by apply dim_flags_length. lia.
  - rewrite (keep_size _ _ _ _ BS), NI by auto. reflexivity.
  - rewrite (keep_size _ _ _ _ LS), NI by auto. reflexivity.
Qed.

Lemma accepts_only name (op : list V -> V) (f : list V -> list V) x bd ld c rs T dims r keep o :
  handler_of name = HDefault -> stream_ok x bd ld c rs T ->
  (call_reduce name op x dims keep = Ok o -> exists ds, Forall2 (refers (names x)) dims ds /\ NoDup ds) /\
  (call_along name f x r = Ok o -> exists k, refers (names x) r k).
Proof.
  intros H SO. split; intros E.
  - rewrite reduce_default in E by auto. unfold torch_reduce in E.
    destruct (mapM (resolve (ndim (tn x)) (names x)) dims) as [ds|e] eqn:M; [|discriminate]. cbn [bind] in E.
    destruct (nat_dup ds) eqn:D; [discriminate|]. exists ds. split; [|now apply nat_dup_false].
    clear E D. revert ds M. induction dims as [|d dims IH]; intros ds M.
    + injection M as <-. constructor.
    + rewrite mapM_cons in M. destruct (resolve _ _ d) as [k|e] eqn:R; [|discriminate]. cbn [bind] in M.
      destruct (mapM _ dims) as [ds'|e] eqn:M'; [|discriminate]. cbn [bind] in M. injection M as <-.
      constructor; auto. apply (resolve_inv (ndim (tn x))); auto. apply SO.
  - rewrite along_default in E by auto. unfold torch_along in E.
    destruct (resolve (ndim (tn x)) (names x) r) as [k|e] eqn:R; [|discriminate]. exists k. apply (resolve_inv (ndim (tn x))); auto. apply SO.
Qed.

(* ---- over the batch or the length dimension *)

Lemma all_flags nd : repeat true nd = dim_flags nd (seq 0 nd).
Proof.
  unfold dim_flags. apply nth_ext with (d := true) (d' := true); [now rewrite repeat_length, map_length, seq_length|].
  intros i Hi. rewrite repeat_length in Hi. rewrite nth_repeat. symmetry.
  rewrite (nth_indep _ _ (existsb (Nat.eqb O) (seq 0 nd))) by (now rewrite map_length, seq_length).
  rewrite (map_nth (fun k => existsb (Nat.eqb k) (seq 0 nd))). apply existsb_nat. rewrite seq_nth by auto. apply in_seq. lia.
Qed.

Lemma covering nd ds k : (k < nd)%nat -> covers ds k -> exists ds',
  match ds with [] => repeat true nd | _ => dim_flags nd ds end = dim_flags nd ds' /\ In k ds'.
Proof.
  intros L H. destruct ds as [|d ds].
  - exists (seq 0 nd). split; [apply all_flags|]. apply in_seq. lia.
  - exists (d :: ds). split; auto. destruct H as [H|H]; [discriminate|exact H].
Qed.

Lemma dropped_name x bd k s ds : length (names x) = length (shp (tn x)) -> names_distinct (names x) ->
  nth_error (names x) k = Some (Some s) -> In k ds ->
  nth_error (left_over (dim_flags (ndim (tn x)) ds) (names x)) bd <> Some (Some s).
Proof.
  intros R D N I H. unfold ndim in H. rewrite (@left_over_dims dname None) in H by auto.
  apply (at_inv (names x) (others (length (shp (tn x))) ds) None) in H as (j & A & B);
    [|intros j J; apply In_others in J; destruct J as [J _]; lia].
  assert (j = k) by (eapply D; eauto). subst j. apply nth_error_In in A. apply In_others in A. tauto.
Qed.

Lemma over_streams_drop name op x bd ld c rs T dims ds : handler_of name = HDefault -> stream_ok x bd ld c rs T ->
  Forall2 (refers (names x)) dims ds -> NoDup ds -> covers ds bd \/ covers ds ld ->
  exists y, call_reduce name op x dims false = Ok (DStream y) /\ smeta y = smeta x /\ not_stream y.
Proof.
  intros H SO R ND C. rewrite (reduce_ok _ _ _ _ _ _ _ _ _ _ _ H SO R ND). eexists. split; [reflexivity|]. cbn [smeta]. split; [reflexivity|].
  intros bd' ld' c' rs' T' SO'.
  assert (LB : (bd < ndim (tn x))%nat) by (apply nth_error_Some; rewrite (so_bsize _ _ _ _ _ _ SO); discriminate).
  assert (LL : (ld < ndim (tn x))%nat) by (apply nth_error_Some; rewrite (so_lsize _ _ _ _ _ _ SO); discriminate).
  destruct C as [C|C].
  - destruct (covering _ _ _ LB C) as (ds' & E & I). pose proof (so_bname _ _ _ _ _ _ SO') as N. cbn zeta in N. cbn [names] in N. rewrite E in N.
    revert N. apply (dropped_name x bd' bd); auto; apply SO.
  - destruct (covering _ _ _ LL C) as (ds' & E & I). pose proof (so_lname _ _ _ _ _ _ SO') as N. cbn zeta in N. cbn [names] in N. rewrite E in N.
    revert N. apply (dropped_name x ld' ld); auto; apply SO.
Qed.

Lemma rows_lens c rs c' rs' : of_rows c rs = of_rows c' rs' -> map rlen rs = map rlen rs'.
Proof. intros E. apply (f_equal lens) in E. exact E. Qed.

Lemma over_streams_keep name op x bd ld c rs T dims ds : handler_of name = HDefault -> stream_ok x bd ld c rs T ->
  Forall2 (refers (names x)) dims ds -> NoDup ds ->
  covers ds bd /\ zlen rs <> 1 \/ covers ds ld /\ Exists (fun r => 1 < rlen r) rs ->
  exists y, call_reduce name op x dims true = Ok (DStream y) /\ smeta y = smeta x /\ not_stream y.
Proof.
  intros H SO R ND C. rewrite (reduce_ok _ _ _ _ _ _ _ _ _ _ _ H SO R ND). eexists. split; [reflexivity|]. cbn [smeta]. split; [reflexivity|].
  intros bd' ld' c' rs' T' SO'. cbn zeta in SO'. set (red := match ds with [] => _ | _ => _ end) in SO'.
  assert (LB : (bd < ndim (tn x))%nat) by (apply nth_error_Some; rewrite (so_bsize _ _ _ _ _ _ SO); discriminate).
  assert (LL : (ld < ndim (tn x))%nat) by (apply nth_error_Some; rewrite (so_lsize _ _ _ _ _ _ SO); discriminate).
  assert (bd' = bd) by (eapply (so_distinct _ _ _ _ _ _ SO); [apply (so_bname _ _ _ _ _ _ SO')|apply (so_bname _ _ _ _ _ _ SO)]). subst bd'.
  assert (ld' = ld) by (eapply (so_distinct _ _ _ _ _ _ SO); [apply (so_lname _ _ _ _ _ _ SO')|apply (so_lname _ _ _ _ _ _ SO)]). subst ld'.
  assert (EL : map rlen rs = map rlen rs').
  { apply (rows_lens c rs c' rs'). rewrite <- (so_meta _ _ _ _ _ _ SO), <- (so_meta _ _ _ _ _ _ SO'). reflexivity. }
  destruct C as [[C N]|[C N]].
  - destruct (covering _ _ _ LB C) as (ds' & E & I). pose proof (so_bsize _ _ _ _ _ _ SO') as S. cbn [tn t_reduce shp] in S.
    unfold red in S. rewrite E in S. rewrite (keep_size _ _ _ _ (so_bsize _ _ _ _ _ _ SO)) in S.
    rewrite (proj2 (existsb_nat bd ds') I) in S. injection S as S. apply N. apply (f_equal (@length Z)) in EL. rewrite !map_length in EL.
    unfold zlen in *. lia.
  - destruct (covering _ _ _ LL C) as (ds' & E & I). pose proof (so_lsize _ _ _ _ _ _ SO') as S. cbn [tn t_reduce shp] in S.
    unfold red in S. rewrite E in S. rewrite (keep_size _ _ _ _ (so_lsize _ _ _ _ _ _ SO)) in S.
    rewrite (proj2 (existsb_nat ld ds') I) in S. injection S as S. subst T'.
    apply Exists_exists in N as (r & Ir & Lr). apply (in_map rlen) in Ir. rewrite EL in Ir. apply in_map_iff in Ir as (r' & E' & Ir).
    pose proof (so_fit _ _ _ _ _ _ SO') as F. rewrite Forall_forall in F. specialize (F r' Ir). cbn beta in F. lia.
Qed.

(* ---- which functions may be used along the length or the batch dimension *)

Definition one_stream (l : list V) (n : Z) (v0 : V) : @stensor V :=
  mkSt (mkTn [1; zlen l] (fun ix => nth (Z.to_nat (nth 1 ix 0)) l v0)) [Some "B"; Some "L"]%string
       (of_rows false [mkRow "s" true true n 0]).

Lemma BL_distinct : names_distinct [Some "B"; Some "L"]%string.
Proof. apply names_dup_false. reflexivity. Qed.

Lemma one_stream_ok l n v0 : 0 <= n <= zlen l -> stream_ok (one_stream l n v0) 0 1 false [mkRow "s" true true n 0] (zlen l).
Proof.
  intros H. constructor; try reflexivity.
  - apply BL_distinct.
  - cbn [one_stream tn shp]. constructor; [lia|]. constructor; [lia|constructor].
  - constructor; [simpl; lia|constructor].
  - constructor; [simpl; lia|constructor].
Qed.

Lemma one_stream_line l n v0 : line (tn (one_stream l n v0)) (zlen l) [0] [] = l.
Proof.
  unfold line, positions, zlen. rewrite Nat2Z.id, map_map. cbn [one_stream tn at_ app nth].
  apply map_nth_self; auto. intros i Hi. rewrite Nat2Z.id. now apply nth_error_nth'.
Qed.

Lemma length_needs_causal name f : handler_of name = HDefault -> keeps_length f ->
  (forall x bd ld c rs T y, stream_ok x bd ld c rs T -> call_along name f x (DNam "L") = Ok (DStream y) -> each_alone f bd ld rs x y) ->
  causal f.
Proof.
  intros H K A a b. destruct (a ++ b) as [|v0 l] eqn:E.
  - apply app_eq_nil in E as [-> ->]. specialize (K []). destruct (f []); [reflexivity|discriminate].
  - rewrite <- E in *. clear E.
    assert (B : 0 <= zlen a <= zlen (a ++ b)) by (unfold zlen; rewrite app_length; lia).
    pose proof (one_stream_ok (a ++ b) (zlen a) v0 B) as SO.
    assert (R : refers (names (one_stream (a ++ b) (zlen a) v0)) (DNam "L") 1) by reflexivity.
    specialize (A _ _ _ _ _ _ _ SO (along_ok _ f _ _ _ _ _ _ _ _ H SO R)).
    specialize (A [0] [] O _ eq_refl eq_refl eq_refl). cbn [rlen tn] in A.
    rewrite (line_firstn _ (zlen a) (zlen (a ++ b))) in A by auto.
    rewrite along_line in A by auto. rewrite (line_firstn _ (zlen a) (zlen (a ++ b))) in A by auto.
    rewrite one_stream_line in A. unfold zlen in A. rewrite Nat2Z.id in A.
    replace (firstn (length a) (a ++ b)) with a in A; [exact A|].
    rewrite firstn_app, Nat.sub_diag, firstn_all, app_nil_r. reflexivity.
Qed.

(** One value per stream. *)
Definition many_streams (l : list V) (v0 : V) : @stensor V :=
  mkSt (mkTn [zlen l; 1] (fun ix => nth (Z.to_nat (nth 0 ix 0)) l v0)) [Some "B"; Some "L"]%string
       (of_rows false (map (fun _ => mkRow "s" true true 1 0) l)).

Lemma many_streams_ok l v0 : stream_ok (many_streams l v0) 0 1 false (map (fun _ => mkRow "s" true true 1 0) l) 1.
Proof.
  constructor; try reflexivity.
  - apply BL_distinct.
  - cbn [many_streams tn shp]. constructor; [unfold zlen; lia|]. constructor; [lia|constructor].
  - unfold zlen. rewrite map_length. reflexivity.
  - apply Forall_forall. intros r I. apply in_map_iff in I as (v & <- & _). simpl. lia.
  - apply Forall_forall. intros r I. apply in_map_iff in I as (v & <- & _). simpl. lia.
Qed.

Lemma many_streams_line l v0 : line (tn (many_streams l v0)) (zlen l) [] [0] = l.
Proof.
  unfold line, positions, zlen. rewrite Nat2Z.id, map_map. cbn [many_streams tn at_ app nth].
  apply map_nth_self; auto. intros i Hi. rewrite Nat2Z.id. now apply nth_error_nth'.
Qed.

Lemma flat_map_single (f : list V -> list V) (g : V -> V) l : (forall v, In v l -> f [v] = [g v]) -> flat_map (fun v => f [v]) l = map g l.
Proof.
  induction l as [|v l IH]; intros H; [reflexivity|]. simpl. rewrite H by (now left). simpl. f_equal. apply IH. intros u I. apply H. now right.
Qed.

Lemma flat_map_error (f : list V -> list V) l i v : keeps_length f -> nth_error l i = Some v ->
  f [v] = match nth_error (flat_map (fun v => f [v]) l) i with Some w => [w] | None => [] end.
Proof.
  intros K. revert i. induction l as [|u l IH]; intros [|i] H; try discriminate; simpl in *.
  - injection H as ->. pose proof (K [v]) as L. destruct (f [v]) as [|w [|? ?]]; try discriminate. reflexivity.
  - pose proof (K [u]) as L. destruct (f [u]) as [|w [|? ?]]; try discriminate. simpl. now apply IH.
Qed.

(** Each value of [y] is what [f] makes of the value of [x] at the same place alone. *)
Lemma one_by_one_each f t d n ia i ic : keeps_length f -> one_by_one f -> nth d (shp t) 0 = n -> length ia = d -> 0 <= i < n ->
  [at_ (t_along f t d) (ia ++ i :: ic)] = f [at_ t (ia ++ i :: ic)].
Proof.
  intros K O N L B. pose proof (along_line f t d n ia ic K N L) as E. rewrite O in E.
  assert (H : nth_error (line t n ia ic) (Z.to_nat i) = Some (at_ t (ia ++ i :: ic))).
  { unfold line. rewrite nth_error_map, nth_error_positions by auto. reflexivity. }
  rewrite (flat_map_error f _ _ _ K H), <- E. unfold line. rewrite nth_error_map, nth_error_positions by auto. reflexivity.
Qed.

Lemma batch_needs_pointwise name f : handler_of name = HDefault -> keeps_length f ->
  (forall x bd ld c rs T y ix, stream_ok x bd ld c rs T -> call_along name f x (DNam "B") = Ok (DStream y) -> in_range (shp (tn x)) ix ->
     [at_ (tn y) ix] = f [at_ (tn x) ix]) ->
  one_by_one f.
Proof.
  intros H K A l. destruct l as [|v0 l0]; [specialize (K []); destruct (f []); [reflexivity|discriminate]|].
  set (l := v0 :: l0).
  pose proof (many_streams_ok l v0) as SO.
  assert (R : refers (names (many_streams l v0)) (DNam "B") 0) by reflexivity.
  pose proof (fun ix => A _ _ _ _ _ _ _ ix SO (along_ok _ f _ _ _ _ _ _ _ _ H SO R)) as B. cbn [tn] in B.
  pose proof (along_line f (tn (many_streams l v0)) 0 (zlen l) [] [0] K eq_refl eq_refl) as E.
  rewrite many_streams_line in E. rewrite <- E. clear E.
  rewrite <- (many_streams_line l v0) at 3. unfold line. rewrite flat_map_concat_map, map_map.
  assert (G : forall ps, (forall p, In p ps -> 0 <= p < zlen l) ->
    map (fun p => at_ (t_along f (tn (many_streams l v0)) 0) ([] ++ p :: [0])) ps =
    concat (map (fun p => f [at_ (tn (many_streams l v0)) ([] ++ p :: [0])]) ps)).
  { induction ps as [|p ps IH]; intros P; [reflexivity|]. cbn [map concat]. rewrite <- B.
    - simpl. f_equal. apply IH. intros q I. apply P. now right.
    - cbn [many_streams tn shp app]. constructor; [apply P; now left|]. constructor; [lia|constructor]. }
  apply G. intros p I. now apply In_positions.
Qed.

End Proofs.

Lemma listed_softmax f : In f (along_functions ++ over_functions) -> (In f DEFAULT_VALID <-> f = "softmax" \/ f = "Tensor.softmax")%string.
Proof.
  intros I.
  assert (M : In f DEFAULT_VALID <-> mem f DEFAULT_VALID = true).
  { unfold mem. rewrite existsb_exists. split; [intros J; exists f; split; auto; apply String.eqb_refl|].
    intros (g & J & E). apply String.eqb_eq in E. now subst. }
  assert (S : (f = "softmax" \/ f = "Tensor.softmax")%string <-> (String.eqb f "softmax" || String.eqb f "Tensor.softmax")%string = true)
    by (now rewrite orb_true_iff, !String.eqb_eq).
  rewrite M, S. clear M S.
  enough (E : forallb (fun f => Bool.eqb (mem f DEFAULT_VALID) (String.eqb f "softmax" || String.eqb f "Tensor.softmax")%string)
    (along_functions ++ over_functions) = true).
  { rewrite forallb_forall in E. specialize (E f I). apply eqb_prop in E. now rewrite E. }
  vm_compute. reflexivity.
Qed.

(* ---- softmax *)

Section Softmax.
Open Scope Q_scope.

Lemma total_app a b : total (a ++ b) == total a + total b.
Proof. induction a as [|v a IH]; simpl; [ring|]. rewrite IH. ring. Qed.

Lemma total_pos (w : Q -> Q) l : (forall v, 0 < w v) -> l <> [] -> 0 < total (map w l).
Proof.
  intros P. induction l as [|v l IH]; [congruence|]. intros _. simpl. destruct l as [|u l].
  - simpl. rewrite Qplus_0_r. apply P.
  - assert (0 < total (map w (u :: l))) by (apply IH; discriminate). pose proof (P v). lra.
Qed.

Lemma total_div (w : Q -> Q) s l : ~ s == 0 -> total (map (fun v => w v / s) l) == total (map w l) / s.
Proof. intros N. induction l as [|v l IH]; simpl; [field; auto|]. rewrite IH. field; auto. Qed.

Lemma softmax_alone w l : (forall v, 0 < w v) -> l <> [] -> total (softmax w l) == 1.
Proof.
  intros P N. unfold softmax. pose proof (total_pos w l P N). rewrite total_div by lra. field. lra.
Qed.

Lemma softmax_prefix w a b : (forall v, 0 < w v) -> b <> [] -> total (firstn (length a) (softmax w (a ++ b))) < 1.
Proof.
  intros P N. unfold softmax. rewrite map_app, firstn_app, map_length, Nat.sub_diag, app_nil_r.
  rewrite firstn_all2 by (rewrite map_length; lia).
  assert (T : 0 < total (map w (a ++ b))) by (apply total_pos; auto; destruct a; simpl; congruence).
  rewrite total_div by lra. apply Qlt_shift_div_r; auto. rewrite map_app, total_app. pose proof (total_pos w b P N). lra.
Qed.

Lemma softmax_keeps w : keeps_length (softmax w).
Proof. intros l. unfold softmax. apply map_length. Qed.

Lemma softmax_padded name w (x : @stensor Q) bd ld c rs T r' : handler_of name = HDefault -> (forall v, 0 < w v) ->
  stream_ok x bd ld c rs T -> refers (names x) r' ld ->
  exists y, call_along name (softmax w) x r' = Ok (DStream y) /\
    (forall ia ic b r, length ia = ld -> nth bd (ia ++ 0%Z :: ic) 0%Z = Z.of_nat b -> nth_error rs b = Some r -> (0 < rlen r < T)%Z ->
       total (line (tn y) (rlen r) ia ic) < 1 /\ total (softmax w (line (tn x) (rlen r) ia ic)) == 1).
Proof.
  intros H P SO R. rewrite (along_ok _ (softmax w) _ _ _ _ _ _ _ _ H SO R). eexists. split; [reflexivity|].
  intros ia ic b r L HB HR B. cbn [tn].
  assert (N : nth ld (shp (tn x)) 0%Z = T) by (apply nth_error_nth; apply (so_lsize _ _ _ _ _ _ SO)).
  split.
  - rewrite (line_firstn _ (rlen r) T) by lia. rewrite along_line by (auto using softmax_keeps).
    rewrite <- (firstn_skipn (Z.to_nat (rlen r)) (line (tn x) T ia ic)) at 1.
    replace (Z.to_nat (rlen r)) with (length (firstn (Z.to_nat (rlen r)) (line (tn x) T ia ic))) at 1
      by (rewrite firstn_length, line_length; lia).
    apply softmax_prefix; auto. intros E. apply (f_equal (@length Q)) in E. rewrite skipn_length, line_length in E. simpl in E. lia.
  - apply softmax_alone; auto. intros E. apply (f_equal (@length Q)) in E. rewrite line_length in E. simpl in E. lia.
Qed.

End Softmax.

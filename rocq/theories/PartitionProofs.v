(** Proofs about partition_by_sum and AudioStreamDataset.split. *)

From Coq Require Import String List ZArith Bool Lia Permutation Sorted.
From Coq Require Import ZifyBool.
From Verif Require Import Py Meta MetaSpec MetaProofs ConvProofs ConvMoreProofs StackProofs Pad Data DataSpec DataProofs.
Import ListNotations.
Open Scope nat_scope.

Lemma upd_len {A} (g : A -> A) : forall l k, length (upd l k g) = length l.
Proof. induction l; intros [|k]; simpl; auto. Qed.

Lemma nth_upd {A} (g : A -> A) : forall l k j, nth_error (upd l k g) j = if j =? k then option_map g (nth_error l k) else nth_error l j.
Proof. induction l as [|a l IH]; intros [|k] [|j]; cbn [upd nth_error option_map Nat.eqb]; auto. destruct (j =? k); auto. Qed.

Lemma concat_upd {A} (x : A) : forall l k, k < length l -> Permutation (List.concat (upd l k (fun p => p ++ [x]))) (x :: List.concat l).
Proof.
  induction l as [|p l IH]; intros [|k] Hk; cbn [length] in Hk; try lia; cbn [upd List.concat].
  - rewrite <- app_assoc. symmetry. apply Permutation_middle.
  - rewrite (IH k) by lia. symmetry. apply Permutation_middle.
Qed.

Lemma index_of_spec : forall l x, In x l -> index_of x l < length l /\ nth_error l (index_of x l) = Some x.
Proof.
  induction l as [|a l IH]; intros x H; [destruct H|]. cbn [index_of length]. destruct (a =? x)%Z eqn:E.
  - assert (a = x) by lia. subst. split; [lia|reflexivity].
  - destruct H as [->|H]; [lia|]. destruct (IH x H). split; [lia|auto].
Qed.

Lemma fold_min_spec : forall l a, let m := fold_left Z.min l a in In m (a :: l) /\ (m <= a)%Z /\ Forall (fun x => m <= x)%Z l.
Proof.
  induction l as [|b l IH]; intros a; cbn [fold_left].
  - split; [left; auto|]. split; [lia|constructor].
  - destruct (IH (Z.min a b)) as (H1 & H2 & H3). split; [|split; [lia|constructor; [lia|auto]]].
    destruct H1 as [H1|H1]; [|right; right; auto]. destruct (Z.min_spec a b) as [[_ E]|[_ E]]; [left|right; left]; lia.
Qed.

Lemma min_index_spec sums : sums <> [] -> exists k m, min_index sums = Ok k /\ k < length sums /\ nth_error sums k = Some m /\ Forall (fun x => m <= x)%Z sums.
Proof.
  intros Hne. destruct sums as [|a t]; [congruence|]. unfold min_index, zmin.
  destruct (fold_min_spec t a) as (H1 & H2 & H3). set (m := fold_left Z.min t a) in *.
  destruct (index_of_spec (a :: t) m H1) as [G1 G2]. exists (index_of m (a :: t)), m. auto.
Qed.

Lemma map_upd {A B} (h : A -> B) (g : A -> A) (g' : B -> B) : (forall x, h (g x) = g' (h x)) -> forall l k, map h (upd l k g) = upd (map h l) k g'.
Proof. intros E. induction l as [|a l IH]; intros [|k]; simpl; auto; f_equal; auto. Qed.

Lemma zsum_app l1 l2 : (zsum (l1 ++ l2) = zsum l1 + zsum l2)%Z.
Proof. induction l1; cbn [app zsum fold_right]; auto. fold (zsum (l1 ++ l2)). rewrite IHl1. unfold zsum. lia. Qed.

Lemma balanced_step M sums k m v : balanced M sums -> nth_error sums k = Some m -> Forall (fun x => m <= x)%Z sums -> (0 <= v <= M)%Z ->
  balanced M (upd sums k (fun s => s + v)%Z).
Proof.
  intros Hb Hk Hm Hv i j x y. rewrite !nth_upd, Hk. cbn [option_map]. rewrite Forall_forall in Hm.
  destruct (Nat.eqb_spec i k), (Nat.eqb_spec j k); intros Hx Hy.
  - inversion Hx; inversion Hy; lia.
  - inversion Hx; subst. apply nth_error_In in Hy. apply Hm in Hy. lia.
  - inversion Hy; subst. pose proof (Hb _ _ _ _ Hx Hk). lia.
  - eapply Hb; eauto.
Qed.

Lemma partition_loop_spec values M : forall order idxs,
  idxs <> [] -> Forall (fun i => i < length values) order ->
  let val := fun i => nth i values 0%Z in
  exists idxs', partition_loop values order (map (map val) idxs) idxs (map (fun p => zsum (map val p)) idxs) = Ok (map (map val) idxs', idxs') /\
    length idxs' = length idxs /\ Permutation (List.concat idxs') (List.concat idxs ++ order) /\
    (Forall (fun v => 0 <= v <= M)%Z values -> balanced M (map (fun p => zsum (map val p)) idxs) -> balanced M (map (fun p => zsum (map val p)) idxs')).
Proof.
  intros order. induction order as [|i t IH]; intros idxs Hne Ho val.
  - exists idxs. cbn [partition_loop]. rewrite app_nil_r. auto.
  - inversion Ho as [|? ? Hi Ht]; subst. cbn [partition_loop].
    destruct (min_index_spec (map (fun p => zsum (map val p)) idxs)) as (k & m & -> & Hk & Hm & Hmin); [destruct idxs; [congruence|discriminate]|].
    cbn [bind]. rewrite map_length in Hk. rewrite (nth_error_nth' values 0%Z Hi). fold (val i).
    specialize (IH (upd idxs k (fun p => p ++ [i]))). cbv zeta in IH. fold val in IH.
    destruct IH as (r & E & Hl & Hp & Hb).
    { intros E. apply (f_equal (@length _)) in E. rewrite upd_len in E. destruct idxs; [congruence|discriminate]. }
    { auto. }
    rewrite (map_upd (map val) _ (fun p => p ++ [val i])) in E by (intros; rewrite map_app; reflexivity).
    rewrite (map_upd (fun p => zsum (map val p)) _ (fun s => s + val i)%Z) in E, Hb by (intros; rewrite map_app, zsum_app; cbn; lia).
    exists r. split; [exact E|]. rewrite upd_len in Hl. split; [auto|]. split.
    + rewrite Hp, concat_upd by auto. cbn [app]. rewrite Permutation_middle. reflexivity.
    + intros Hv Hbal. apply Hb; auto. apply balanced_step with m; auto. rewrite Forall_forall in Hv. apply Hv. now apply nth_In.
Qed.

Theorem partition_spec values np shuffle sort sorted shuffled M : (1 <= np)%Z -> shuffle && sort = false ->
  Permutation sorted (seq 0 (length values)) -> Permutation shuffled (seq 0 (length values)) ->
  exists parts idxs, partition_by_sum values np shuffle sort sorted shuffled = Ok (parts, idxs) /\
    length idxs = Z.to_nat np /\ parts = map (map (fun i => nth i values 0%Z)) idxs /\
    Permutation (List.concat idxs) (seq 0 (length values)) /\
    ((0 <= M)%Z -> Forall (fun v => 0 <= v <= M)%Z values -> balanced M (map zsum parts)).
Proof.
  intros Hn Hs Hp1 Hp2. unfold partition_by_sum. rewrite Hs.
  set (order := if sort then sorted else if shuffle then shuffled else seq 0 (length values)).
  assert (Hp : Permutation order (seq 0 (length values))) by (unfold order; destruct sort, shuffle; auto).
  set (n := Z.to_nat np). set (val := fun i => nth i values 0%Z).
  assert (Er : map (map val) (repeat [] n) = repeat [] n) by (clear; induction n; simpl; congruence).
  assert (Es : map (fun p => zsum (map val p)) (repeat [] n) = repeat 0%Z n) by (clear; induction n; simpl; congruence).
  destruct (partition_loop_spec values M order (repeat [] n)) as (r & E & Hl & Hpp & Hb).
  { destruct n eqn:En; [lia|discriminate]. }
  { apply Forall_forall. intros i Hi. apply (Permutation_in _ Hp), in_seq in Hi. lia. }
  fold val in E, Hb. rewrite Er, Es in E. exists (map (map val) r), r. split; [exact E|].
  rewrite repeat_length in Hl. split; [auto|]. split; [reflexivity|]. split.
  - rewrite Hpp. replace (List.concat (repeat [] n)) with (@nil nat); [exact Hp|]. clear. induction n; simpl; auto.
  - intros HM Hv. rewrite map_map. apply Hb; auto. rewrite Es. intros j k x y Hx Hy. apply nth_error_In, repeat_spec in Hx, Hy.
    subst. lia.
Qed.

Lemma partition_no_parts values np sort sorted shuffled : (np <= 0)%Z -> values <> [] ->
  (sort = true -> sorted <> []) -> partition_by_sum values np false sort sorted shuffled = Err ValueError.
Proof.
  intros Hn Hv Hs. unfold partition_by_sum. cbn [andb]. replace (Z.to_nat np) with 0 by lia. cbn [repeat].
  destruct sort.
  - destruct sorted; [exfalso; now apply Hs|reflexivity].
  - destruct values; [congruence|reflexivity].
Qed.

(* ---------- split ---------- *)

Section Split.
Context {V : Type}.
Implicit Types (w : world V) (d : dataset) (f : string).

Lemma mapM_all {A B} (h : A -> res B) (l : list A) : (forall a, In a l -> exists b, h a = Ok b) -> exists r, mapM h l = Ok r.
Proof.
  induction l as [|a l IH]; intros H; [eexists; reflexivity|]. rewrite mapM_cons.
  destruct (H a) as (b & ->); [left; auto|]. destruct IH as (r & ->); [intros; apply H; right; auto|]. cbn [bind]. eauto.
Qed.

Lemma lookup_in {A} f (l : list (string * A)) a : lookup f l = Some a -> In (f, a) l.
Proof.
  induction l as [|[j b] l IH]; cbn [lookup]; [discriminate|]. destruct (lookup f l) eqn:E.
  - intros [= <-]. right. auto.
  - destruct (String.eqb_spec j f); [|discriminate]. intros [= <-]. subst. left; auto.
Qed.

Lemma nth_seq_map {A} (l : list A) (x : A) : map (fun i => nth i l x) (seq 0 (length l)) = l.
Proof.
  apply nth_ext with (d := x) (d' := x); [rewrite map_length, seq_length; auto|]. intros n Hn.
  rewrite map_length, seq_length in Hn.
  rewrite (nth_indep _ x (nth 0 l x)) by (rewrite map_length, seq_length; auto). rewrite (map_nth (fun i => nth i l x)), seq_nth; auto.
Qed.

Lemma py_round_ok p q : q <> 0%Z -> exists r, py_round p q = Ok r.
Proof. intros H. unfold py_round. destruct (q =? 0)%Z eqn:E; [lia|]. eauto. Qed.

Lemma mapM_metas w (l : list string) : (forall f, In f l -> exists i, info w f = Ok i /\ snd i <> 0%Z) ->
  exists md, mapM (fun f => do i <- info w f; Ok (f, i)) l = Ok md /\ Forall (fun fm => snd (snd fm) <> 0%Z) md.
Proof.
  induction l as [|f l IH]; intros H; [exists []; split; [reflexivity|constructor]|].
  destruct (H f) as (i & E & Hi); [left; auto|]. destruct IH as (md & E2 & Hm); [intros; apply H; right; auto|].
  exists ((f, i) :: md). rewrite mapM_cons, E. cbn [bind]. rewrite E2. split; [reflexivity|constructor; auto].
Qed.

Lemma mapM_id {A} (h : A -> res A) (l : list A) : Forall (fun a => h a = Ok a) l -> mapM h l = Ok l.
Proof. induction 1; [reflexivity|]. rewrite mapM_cons, H. cbn [bind]. now rewrite IHForall. Qed.

(** What a worker's dataset looks like. *)
Definition worker_of d per sh dr (l : list string) (x : dataset) : Prop :=
  dfiles x = l /\ dcn x = dcn d /\ dcd x = dcd d /\ dbatch x = Some per /\ dshuffle x = sh /\ ddrop x = dr.

Lemma new_worker w d per sh dr l md : (0 < per)%Z -> Forall (fun fm : string * (Z * Z) => snd (snd fm) <> 0%Z) md ->
  (md = [] -> forall f, In f l -> exists i, info w f = Ok i /\ snd i <> 0%Z) ->
  exists x, new_dataset w l (dcn d) (dcd d) None md (Some per) sh dr = Ok x /\ worker_of d per sh dr l x.
Proof.
  intros Hp Hm Hi. unfold new_dataset. destruct (per <=? 0)%Z eqn:E; [lia|].
  assert (G : exists md', (if Nat.eqb (length md) 0 then mapM (fun f => do i <- info w f; Ok (f, i)) l else Ok md) = Ok md' /\
                          Forall (fun fm : string * (Z * Z) => snd (snd fm) <> 0%Z) md').
  { destruct md as [|m md]; [|exists (m :: md); auto]. apply mapM_metas. auto. }
  destruct G as (md' & -> & Hm'). cbn [bind].
  rewrite mapM_id by (eapply Forall_impl; [|exact Hm']; cbn beta; intros a Ha; destruct (snd (snd a) =? 0)%Z eqn:Q; [lia|auto]).
  cbn [bind]. eexists. split; [reflexivity|]. repeat split.
Qed.

Lemma Forall2_map_eq {A B C} (R : A -> B -> Prop) (g : B -> C) (h : A -> C) la lb : Forall2 R la lb -> (forall a b, R a b -> g b = h a) -> map g lb = map h la.
Proof. intros H E. induction H; simpl; auto. f_equal; auto. Qed.

Theorem split_spec w d nw bs sh dr order M : (0 < nw)%Z -> (bs mod nw = 0)%Z -> (0 < bs)%Z -> splittable w d ->
  Permutation order (seq 0 (length (dfiles d))) ->
  exists ds, split w d nw bs sh dr order = Ok ds /\ length ds = Z.to_nat nw /\
    Permutation (List.concat (map dfiles ds)) (dfiles d) /\
    Forall (fun x => worker_of d (bs / nw)%Z sh dr (dfiles x) x) ds /\
    ((0 <= M)%Z -> Forall (fun f => 0 <= estimate d f <= M)%Z (dfiles d) ->
     balanced M (map (fun x => zsum (map (estimate d) (dfiles x))) ds)).
Proof.
  intros Hnw Hmod Hbs (Hlens & Hmeta) Hperm.
  assert (Hper : (0 < bs / nw)%Z).
  { pose proof (Z.div_mod bs nw ltac:(lia)). assert (bs / nw <> 0)%Z by (intros E; rewrite E in *; lia).
    assert (0 <= bs / nw)%Z by (apply Z.div_pos; lia). lia. }
  unfold split. destruct (nw <=? 0)%Z eqn:E1; [lia|]. rewrite Hmod. cbn [Z.eqb negb].
  rewrite (mapM_ok _ (fun f => match lookup f (dlens d) with Some l => l | None => (0%Z, 0%Z) end));
    [|intros f Hf; destruct (Hlens f Hf) as (l & -> & _); reflexivity]. cbn [bind].
  set (files := dfiles d) in *.
  assert (En : mapM (fun l : Z * Z => py_round (fst l * dcd d) (snd l * dcn d))
                 (map (fun f => match lookup f (dlens d) with Some l => l | None => (0%Z, 0%Z) end) files) = Ok (map (estimate d) files)).
  { unfold mapM. rewrite map_map. change (mapM (fun f => py_round (fst (match lookup f (dlens d) with Some l => l | None => (0%Z, 0%Z) end) * dcd d)
        (snd (match lookup f (dlens d) with Some l => l | None => (0%Z, 0%Z) end) * dcn d)) files = Ok (map (estimate d) files)).
    apply mapM_ok. intros f Hf. unfold estimate. destruct (Hlens f Hf) as (l & -> & Hl). destruct (py_round_ok (fst l * dcd d) _ Hl) as (r & ->). reflexivity. }
  rewrite En. cbn [bind].
  destruct (partition_spec (map (estimate d) files) nw false true order (seq 0 (length (map (estimate d) files))) M) as (parts & idxs & Ep & Hlen & Hparts & Hpp & Hbal);
    [lia|reflexivity|rewrite map_length; auto|auto|].
  rewrite map_length in *.
  assert (Epart : partition_by_sum (map (estimate d) files) nw false true order [] = Ok (parts, idxs)) by exact Ep.
  rewrite Epart. cbn [bind]. clear Ep.
  assert (Hrange : Forall (Forall (fun i => i < length files)) idxs).
  { apply Forall_forall. intros p Hp. apply Forall_forall. intros i Hi. assert (G : In i (List.concat idxs)) by (apply in_concat; eauto).
    apply (Permutation_in _ Hpp), in_seq in G. lia. }
  set (pick := fun i => nth i files EmptyString).
  rewrite (mapM_ok _ (map pick)).
  2:{ intros p Hp. rewrite Forall_forall in Hrange. specialize (Hrange p Hp). apply mapM_ok. intros i Hi.
      rewrite Forall_forall in Hrange. rewrite (nth_error_nth' files EmptyString (Hrange i Hi)). reflexivity. }
  cbn [bind]. set (lists := map (map pick) idxs).
  assert (Hcat : Permutation (List.concat lists) files).
  { unfold lists. rewrite <- concat_map. rewrite Hpp. unfold pick. rewrite nth_seq_map. reflexivity. }
  assert (Hmem : forall l f, In l lists -> In f l -> In f files).
  { intros l f Hl Hf. apply (Permutation_in _ Hcat). apply in_concat; eauto. }
  assert (Hmds : exists mds, (if Nat.eqb (length (dmeta d)) 0 then Ok (map (fun _ => []) lists)
               else mapM (mapM (fun f => match lookup f (dmeta d) with Some i => Ok (f, i) | None => Err KeyError end)) lists) = Ok mds /\
             Forall2 (fun l md => Forall (fun fm : string * (Z * Z) => snd (snd fm) <> 0%Z) md /\
                          (md = [] -> forall f, In f l -> exists i, info w f = Ok i /\ snd i <> 0%Z)) lists mds).
  { destruct Hmeta as [[Hm0 Hi]|[Hm0 Hi]].
    - rewrite Hm0. cbn [length Nat.eqb]. eexists. split; [reflexivity|]. clear - Hmem Hi.
      induction lists as [|l lists IH]; cbn [map]; constructor.
      + split; [constructor|]. intros _ f Hf. apply Hi. eapply Hmem; eauto. left; auto.
      + apply IH. intros; eapply Hmem; eauto. right; auto.
    - replace (Nat.eqb (length (dmeta d)) 0) with false by (destruct (dmeta d); [congruence|reflexivity]).
      exists (map (map (fun f => (f, match lookup f (dmeta d) with Some i => i | None => (0%Z, 0%Z) end))) lists). split.
      + apply mapM_ok. intros l Hl. apply mapM_ok. intros f Hf. destruct (Hi f (Hmem l f Hl Hf)) as (i & -> & _). reflexivity.
      + clear - Hmem Hi. induction lists as [|l lists IH]; cbn [map]; constructor.
        * split; [|intros E f Hf; destruct l; [destruct Hf|discriminate]]. apply Forall_forall. intros fm Hfm.
          apply in_map_iff in Hfm as (f & <- & Hf). cbn [snd]. destruct (Hi f (Hmem l f (or_introl eq_refl) Hf)) as (i & -> & G). auto.
        * apply IH. intros; eapply Hmem; eauto. right; auto. }
  destruct Hmds as (mds & -> & Hmds). cbn [bind].
  assert (Hlist : length lists = Z.to_nat nw) by (unfold lists; rewrite map_length; auto).
  assert (Hds : exists ds, mapM (fun p : list string * list (string * (Z * Z)) => new_dataset w (fst p) (dcn d) (dcd d) None (snd p) (Some (bs / nw)%Z) sh dr)
                   (zip lists mds) = Ok ds /\ Forall2 (worker_of d (bs / nw)%Z sh dr) lists ds).
  { clear - Hmds Hper. induction Hmds as [|l md lists mds [H1 H2] Hr IH]; [exists []; split; [reflexivity|constructor]|].
    cbn [zip]. rewrite mapM_cons. cbn [fst snd]. destruct (new_worker w d (bs / nw)%Z sh dr l md Hper H1 H2) as (x & -> & Hx).
    destruct IH as (ds & -> & Hd). cbn [bind]. exists (x :: ds). split; [reflexivity|constructor; auto]. }
  destruct Hds as (ds & -> & Hds). exists ds. split; [reflexivity|].
  assert (Efiles : map dfiles ds = lists) by (clear - Hds; induction Hds as [|l x ls ds [E _] H IH]; simpl; congruence).
  split; [rewrite <- Hlist; clear - Hds; induction Hds; simpl; auto|]. split; [rewrite Efiles; auto|]. split.
  - clear - Hds. induction Hds as [|l x ls ds H Hr IH]; constructor; auto. destruct H as (E & H). rewrite E. split; auto.
  - intros HM Hest. replace (map (fun x => zsum (map (estimate d) (dfiles x))) ds) with (map zsum parts).
    + apply Hbal; auto. apply Forall_forall. intros v Hv. apply in_map_iff in Hv as (f & <- & Hf). rewrite Forall_forall in Hest. auto.
    + rewrite <- (map_map dfiles (fun l => zsum (map (estimate d) l))), Efiles. unfold lists. rewrite map_map, Hparts, map_map.
      apply map_ext_in. intros p Hp. f_equal. rewrite map_map. apply map_ext_in. intros i Hi. rewrite Forall_forall in Hrange.
      specialize (Hrange p Hp). rewrite Forall_forall in Hrange. specialize (Hrange i Hi). unfold pick.
      rewrite (nth_indep _ 0%Z (estimate d EmptyString)) by (rewrite map_length; auto). now rewrite map_nth.
Qed.

Lemma split_rejects w d nw bs sh dr order : (nw <= 0)%Z \/ (0 < nw)%Z /\ (bs mod nw <> 0)%Z -> split w d nw bs sh dr order = Err ValueError.
Proof.
  intros H. unfold split. destruct (nw <=? 0)%Z eqn:E; [reflexivity|]. destruct (bs mod nw =? 0)%Z eqn:E2; [lia|reflexivity].
Qed.

End Split.

(* ---------- a dataset as constructed can be split ---------- *)

Section Splittable.
Context {V : Type}.
Implicit Types (w : world V) (d : dataset) (f : string).

Lemma lookup_total {A} f (l : list (string * A)) : In f (map fst l) -> exists a, lookup f l = Some a.
Proof.
  induction l as [|[j b] l IH]; cbn [map lookup]; [intros []|]. intros H. destruct (lookup f l) eqn:E; [eauto|].
  destruct H as [H|H]; [cbn in H; subst; rewrite String.eqb_refl; eauto|]. destruct (IH H). congruence.
Qed.

Lemma mapM_fst w : forall l md, mapM (fun f => do i <- info w f; Ok (f, i)) l = Ok md -> map fst md = l.
Proof.
  intros l md H. apply mapM_inv in H. induction H as [|f p l md Hf Hr IH]; [reflexivity|]. cbn [map]. rewrite IH. f_equal.
  destruct (info w f); [|discriminate]. inversion Hf. reflexivity.
Qed.

Lemma mapM_nonzero (l md : list (string * (Z * Z))) :
  mapM (fun fm => if (snd (snd fm) =? 0)%Z then Err ZeroDivisionError else Ok fm) l = Ok md -> md = l /\ Forall (fun fm => snd (snd fm) <> 0%Z) l.
Proof.
  intros H. apply mapM_inv in H. induction H as [|a b l md Hf Hr [IH1 IH2]]; [auto|].
  destruct (snd (snd a) =? 0)%Z eqn:E; [discriminate|]. inversion Hf; subst. split; [auto|constructor; [lia|auto]].
Qed.

Lemma new_splittable w files cn cd bs sh dr d : new_dataset w files cn cd None [] bs sh dr = Ok d -> cn <> 0%Z -> splittable w d.
Proof.
  intros H Hcn. unfold new_dataset in H. destruct (match bs with Some b => (b <=? 0)%Z | None => false end); [discriminate|].
  cbn [length Nat.eqb] in H. destruct (mapM _ files) as [md|] eqn:E1 in H; [|discriminate]. cbn [bind] in H.
  destruct (mapM _ md) as [ls|] eqn:E2 in H; [|discriminate]. cbn [bind] in H. inversion H; subst d. clear H.
  apply mapM_nonzero in E2 as [-> Hz]. pose proof (mapM_fst _ _ _ E1) as Ef. rewrite Forall_forall in Hz.
  assert (Hlook : forall f, In f files -> exists a, lookup f md = Some a /\ snd a <> 0%Z).
  { intros f Hf. destruct (lookup_total f md) as (a & Ea); [rewrite Ef; auto|]. exists a. split; auto. apply (Hz (f, a)). now apply lookup_in. }
  unfold splittable. cbn [dfiles dlens dmeta dcn]. split.
  - intros f Hf. destruct (Hlook f Hf) as (a & Ea & Hs). exists a. split; auto. nia.
  - destruct md as [|m md].
    + left. split; auto. intros f Hf. rewrite <- Ef in Hf. destruct Hf.
    + right. split; [discriminate|auto].
Qed.

End Splittable.

(* ---------- collation ---------- *)

Section Collate.
Context {V : Type}.
Implicit Types (s : sample V) (l b : list (sample V)).

Lemma insert_perm s l : Permutation (insert_desc s l) (s :: l).
Proof.
  induction l as [|x l IH]; cbn [insert_desc]; [auto|]. destruct (slen x <? slen s)%Z; [auto|]. rewrite IH. constructor.
Qed.

Lemma insert_sorted s l : StronglySorted (fun x y => slen y <= slen x)%Z l -> StronglySorted (fun x y => slen y <= slen x)%Z (insert_desc s l).
Proof.
  induction 1 as [|x l Hs IH Hx]; cbn [insert_desc]; [repeat constructor|]. destruct (slen x <? slen s)%Z eqn:E.
  - constructor; [constructor; auto|]. constructor; [lia|]. eapply Forall_impl; [|exact Hx]. cbn beta. intros; lia.
  - constructor; auto. apply Forall_forall. intros y Hy. apply (Permutation_in _ (insert_perm s l)) in Hy. destruct Hy as [<-|Hy]; [lia|].
    rewrite Forall_forall in Hx. auto.
Qed.

Lemma insert_filter s n : forall l, StronglySorted (fun x y => slen y <= slen x)%Z l ->
  filter (fun x => slen x =? n)%Z (insert_desc s l) = filter (fun x => slen x =? n)%Z l ++ filter (fun x => slen x =? n)%Z [s].
Proof.
  induction 1 as [|x l Hs IH Hx]; [reflexivity|]. cbn [insert_desc]. destruct (slen x <? slen s)%Z eqn:E.
  - destruct (slen s =? n)%Z eqn:En.
    + assert (G : filter (fun y : sample V => slen y =? n)%Z (x :: l) = []).
      { apply filter_none. intros y [<-|Hy]; [lia|]. rewrite Forall_forall in Hx. specialize (Hx y Hy). lia. }
      cbn [filter] in *. rewrite En, G. reflexivity.
    + cbn [filter]. rewrite En, app_nil_r. reflexivity.
  - cbn [filter] in *. rewrite IH. destruct (slen x =? n)%Z; reflexivity.
Qed.

Lemma sort_fold : forall l acc, StronglySorted (fun x y => slen y <= slen x)%Z acc ->
  let r := fold_left (fun acc s => insert_desc s acc) l acc in
  StronglySorted (fun x y => slen y <= slen x)%Z r /\ Permutation r (acc ++ l) /\
  forall n, filter (fun x => slen x =? n)%Z r = filter (fun x => slen x =? n)%Z acc ++ filter (fun x => slen x =? n)%Z l.
Proof.
  induction l as [|s l IH]; intros acc Ha; cbn [fold_left].
  - rewrite app_nil_r. split; auto. split; auto. intros. now rewrite app_nil_r.
  - destruct (IH (insert_desc s acc) (insert_sorted s acc Ha)) as (H1 & H2 & H3). split; auto. split.
    + rewrite H2, insert_perm. cbn [app]. apply Permutation_middle.
    + intros n. rewrite H3, insert_filter by auto. rewrite <- app_assoc. f_equal. cbn [filter]. destruct (slen s =? n)%Z; reflexivity.
Qed.

Theorem sort_spec l : StronglySorted (fun x y => slen y <= slen x)%Z (sort_desc l) /\ Permutation (sort_desc l) l /\
  forall n, filter (fun x => slen x =? n)%Z (sort_desc l) = filter (fun x => slen x =? n)%Z l.
Proof. destruct (sort_fold l [] ltac:(constructor)) as (H1 & H2 & H3). auto. Qed.

Theorem collate_spec (z : V) l : l <> [] ->
  exists r sl, custom_collate z l = Ok r /\
    StronglySorted (fun x y => slen y <= slen x)%Z sl /\ Permutation sl l /\
    (forall n, filter (fun x => slen x =? n)%Z sl = filter (fun x => slen x =? n)%Z l) /\
    bm r = mkMeta (map sid sl) (map ssos sl) (map seos sl) (map slen sl) (Some (map sidx sl)) /\
    Forall2 (fun row s => row = sdata s ++ repeat z (bw r - length (sdata s)) /\ length row = bw r) (bd r) sl /\
    (exists s, In s l /\ bw r = length (sdata s)).
Proof.
  intros Hne. destruct (sort_spec l) as (H1 & H2 & H3). set (sl := sort_desc l) in *.
  assert (Hsl : sl <> []) by (intros E; rewrite E in H2; apply Permutation_nil in H2; auto).
  unfold custom_collate. fold sl. destruct sl as [|x sl'] eqn:Esl; [congruence|]. rewrite <- Esl in *.
  assert (Ep : torch_pad_sequence z (map sdata sl) = Ok (max_nat (map (@length V) (map sdata sl)), map (pad_to z (max_nat (map (@length V) (map sdata sl)))) (map sdata sl)))
    by (rewrite Esl; reflexivity).
  rewrite Ep. cbn [bind]. unfold make_meta. rewrite !map_length, !Nat.eqb_refl. cbn [andb bind].
  eexists. exists sl. split; [reflexivity|]. split; auto. split; auto. split; auto. cbn [bm bd bw]. split; [reflexivity|].
  set (wd := max_nat (map (@length V) (map sdata sl))).
  assert (Hle : forall s, In s sl -> length (sdata s) <= wd).
  { unfold wd. clear. induction sl as [|y sl IH]; intros s [].
    - subst. unfold max_nat. cbn [map fold_right]. lia.
    - specialize (IH s H). unfold max_nat in *. cbn [map fold_right] in *. lia. }
  split.
  - assert (G : forall k, incl k sl -> Forall2 (fun row s => row = sdata s ++ repeat z (wd - length (sdata s)) /\ length row = wd) (map (pad_to z wd) (map sdata k)) k).
    { induction k as [|y k IH]; intros Hk; cbn [map]; constructor.
      - unfold pad_to. split; auto. rewrite app_length, repeat_length. specialize (Hle y (Hk y (or_introl eq_refl))). lia.
      - apply IH. intros a Ha. apply Hk. right; auto. }
    apply G. apply incl_refl.
  - assert (G : exists s, In s sl /\ wd = length (sdata s)).
    { unfold wd. clear - Hsl. induction sl as [|y sl IH]; [congruence|]. destruct sl as [|y2 sl].
      - exists y. split; [left; auto|]. cbn. lia.
      - destruct IH as (s & Hs & E); [discriminate|]. cbn [map max_nat fold_right] in *.
        destruct (le_lt_dec (length (sdata y)) (length (sdata s))).
        + exists s. split; [right; auto|]. unfold max_nat in *. cbn [map fold_right] in *. lia.
        + exists y. split; [left; auto|]. unfold max_nat in *. cbn [map fold_right] in *. lia. }
    destruct G as (s & Hs & E). exists s. split; auto. eapply Permutation_in; eauto.
Qed.

End Collate.

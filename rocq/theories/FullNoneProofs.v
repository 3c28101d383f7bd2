(** Proofs: None and Ellipsis in index expressions. *)

From Coq Require Import String List ZArith Bool Lia.
From Coq Require Import ZifyBool.
From Verif Require Import Py Meta MetaSpec MetaProofs MetaLenProofs MetaSplitProofs MetaBatchProofs Named NamedSpec NamedProofs
  NamedSelProofs NamedIndexProofs NamedMetaProofs NamedGetProofs NamedOpsProofs NamedShapeProofs Gather FullIndex FullIndexSpec FullIndexProofs FullRankProofs
  FullMaskProofs FullMaskGetProofs FullIntsProofs.
Import ListNotations.
Open Scope Z_scope.

Section None.
Context {V : Type}.
Implicit Types (t : @tensor V) (x y : @stensor V).

Lemma repeat_snoc {A} (a : A) n l : repeat a n ++ a :: l = a :: repeat a n ++ l.
Proof. induction n as [|n IH]; [reflexivity|]. cbn. now rewrite IH. Qed.

Lemma torch_nones j : forall t gap d a b, shp t = a ++ b -> length a = d ->
  exists t', torch_apply t d gap (repeat INone j) = Ok t' /\ shp t' = a ++ repeat 1 j ++ b /\
    (forall ia ic, length ia = d -> at_ t' (ia ++ repeat 0 j ++ ic) = at_ t (ia ++ ic)).
Proof.
  induction j as [|j IH]; intros t gap d a b E <-.
  - exists t. cbn. auto.
  - cbn [repeat torch_apply].
    assert (L : (length a <= ndim t)%nat) by (unfold ndim; rewrite E, app_length; lia).
    destruct (unsqueeze_at t (length a) L) as [Sh A]. rewrite E, firstn_len_app, skipn_len_app in Sh.
    destruct (IH (t_unsqueeze t (length a)) gap (S (length a)) (a ++ [1]) b) as (t' & B & C & D).
    + rewrite Sh, <- app_assoc. reflexivity.
    + rewrite app_length. simpl. lia.
    + exists t'. split; [exact B|]. split; [rewrite C, <- app_assoc; reflexivity|].
      intros ia ic Hia. cbn [app]. rewrite app_snoc_assoc, D by (rewrite app_length; simpl; lia).
      rewrite <- app_assoc. cbn [app]. now apply A.
Qed.

Definition after (nd : nat) (l : list item) : nat := if has_dots l then O else (nd - length l)%nat.

Lemma has_dots_In l : has_dots l = true <-> In IEll l.
Proof.
  unfold has_dots. rewrite existsb_exists. split.
  - intros (i & H & E). destruct i; try discriminate. exact H.
  - intros H. exists IEll. auto.
Qed.

Lemma has_dots_false l : ~ In IEll l -> has_dots l = false.
Proof. intros H. destruct (has_dots l) eqn:E; [|reflexivity]. apply has_dots_In in E. contradiction. Qed.


(** The dimension at which the next item acts. *)
Fixpoint next (d gap : nat) (l : list item) : nat :=
  match l with
  | [] => d
  | IInt _ :: r | IScalar _ :: r => next d gap r
  | IEll :: r => next (d + gap) gap r
  | _ :: r => next (S d) gap r
  end.

Lemma torch_apply_app a : forall t d gap b, torch_apply t d gap (a ++ b) = do t' <- torch_apply t d gap a; torch_apply t' (next d gap a) gap b.
Proof.
  induction a as [|i a IH]; intros t d gap b; [reflexivity|]. cbn [app].
  destruct i; cbn [torch_apply next]; try apply IH; destruct (Nat.leb (ndim t) d); try reflexivity.
  - destruct (py_getitem _ _); [apply IH|reflexivity].
  - destruct (tensor_slice _ _); [apply IH|reflexivity].
  - destruct (py_gather _ _); [apply IH|reflexivity].
  - destruct (py_gather _ _); [apply IH|reflexivity].
  - destruct (tensor_mask _ _); [apply IH|reflexivity].
  - destruct (py_getitem _ _); [apply IH|reflexivity].
Qed.

Lemma next_app a : forall d gap b, next d gap (a ++ b) = next (next d gap a) gap b.
Proof. induction a as [|i a IH]; intros; [reflexivity|]. destruct i; cbn [app next]; apply IH. Qed.

Lemma next_picks ns items ss gap : picks_all ns items ss -> forall d, next d gap items = (d + length (kept_sizes ss ns))%nat.
Proof.
  induction 1 as [|n i s ns items ss Hs HP IH]; intros d; [cbn; lia|].
  destruct Hs; cbn [next kept_sizes length]; rewrite IH; lia.
Qed.

(** torch applies the Nones where the other items end. *)
Lemma torch_apply_nones t l items ss j : Forall (fun n => 0 <= n) (shp t) ->
  spreads (ndim t) (Tuple l) items -> picks_all (shp t) items ss ->
  exists t1 t2, torch_apply t 0 (ndim t - specified l) l = Ok t1 /\ selected t ss t1 /\
    torch_apply t 0 (ndim t - specified l) (l ++ repeat INone j) = Ok t2 /\
    new_dims (ndim t1 - after (ndim t) l) j t1 t2.
Proof.
  intros Hn HS HP. pose proof (picks_all_plain _ _ _ HP) as HPl.
  assert (G : exists t1, torch_apply t 0 (ndim t - specified l) l = Ok t1 /\ selected t ss t1 /\
    next 0 (ndim t - specified l) l = (ndim t1 - after (ndim t) l)%nat).
  { inversion HS as [l0 He HL Hne|l1 l2 He1 He2 HL Hne| |]; subst.
    - destruct (torch_plain t l ss (ndim t - specified l) Hn HL HP) as (t1 & A1 & B1).
      exists t1. split; [exact A1|]. split; [exact B1|]. rewrite (selected_ndim _ _ _ B1).
      apply picks_all_app_inv in HP as (n1 & n2 & s1 & s2 & E & -> & P1 & P2).
      pose proof (picks_all_len _ _ _ P1) as [L1 L1']. apply picks_all_repeat_inv in P2 as [L2 ->].
      rewrite (next_picks _ _ _ _ P1). unfold after. rewrite has_dots_false by auto.
      rewrite E, kept_sizes_app, app_length by auto. rewrite kept_sizes_full by auto. lia.
    - assert (PL : Forall plain_item l1 /\ Forall plain_item l2).
      { apply Forall_app in HPl as [H1 H2]. apply Forall_app in H2 as [_ H2]. auto. }
      destruct PL as [Pl1 Pl2]. destruct (plain_specified _ Pl1) as (S1 & _). destruct (plain_specified _ Pl2) as (S2 & _).
      assert (ES : specified (l1 ++ IEll :: l2) = (length l1 + length l2)%nat).
      { unfold specified in *. rewrite filter_app, app_length. cbn [filter is_none is_ell negb andb]. lia. }
      rewrite ES. destruct (torch_ell t l1 l2 ss Hn HL HP) as (t1 & A1 & B1).
      exists t1. split; [exact A1|]. split; [exact B1|]. rewrite (selected_ndim _ _ _ B1).
      assert (HD : has_dots (l1 ++ IEll :: l2) = true) by (apply has_dots_In, in_or_app; right; now left).
      unfold after. rewrite HD, Nat.sub_0_r.
      apply picks_all_app_inv in HP as (n1 & n23 & s1 & s23 & E & -> & P1 & P23).
      apply picks_all_app_inv in P23 as (n2 & n3 & s2 & s3 & -> & -> & P2 & P3).
      pose proof (picks_all_len _ _ _ P1) as [L1 L1']. apply picks_all_repeat_inv in P2 as [L2 ->].
      pose proof (picks_all_len _ _ _ P3) as [L3 L3'].
      rewrite next_app, (next_picks _ _ _ _ P1). cbn [next]. rewrite (next_picks _ _ _ _ P3).
      rewrite E, !kept_sizes_app, !app_length by (rewrite ?repeat_length; lia). rewrite kept_sizes_full by auto. lia. }
  destruct G as (t1 & A & B & C). exists t1.
  assert (LE : (ndim t1 - after (ndim t) l <= ndim t1)%nat) by lia.
  set (k := (ndim t1 - after (ndim t) l)%nat) in *.
  destruct (torch_nones j t1 (ndim t - specified l) k (firstn k (shp t1)) (skipn k (shp t1))) as (t2 & A2 & B2 & C2).
  { symmetry. apply firstn_skipn. } { rewrite firstn_length. unfold ndim in LE. lia. }
  exists t2. split; [exact A|]. split; [exact B|]. split; [rewrite torch_apply_app, A; cbn [bind]; rewrite C; exact A2|].
  split; [exact B2|exact C2].
Qed.

Lemma specified_nones l j : specified (l ++ repeat INone j) = specified l.
Proof.
  unfold specified. rewrite filter_app, app_length.
  assert (R : filter (fun i => negb (is_none i) && negb (is_ell i)) (repeat INone j) = []) by (induction j; auto). rewrite R. cbn. lia.
Qed.

Lemma filter_nones (f : item -> bool) l j : f INone = false -> filter f (l ++ repeat INone j) = filter f l.
Proof.
  intros H. rewrite filter_app. assert (R : filter f (repeat INone j) = []) by (induction j; cbn; rewrite ?H; auto).
  now rewrite R, app_nil_r.
Qed.

Lemma number_nones l j : number_of_indexed (l ++ repeat INone j) = number_of_indexed l.
Proof. unfold number_of_indexed. now rewrite filter_nones. Qed.

Lemma find_ell_nones l j : find_ell (l ++ repeat INone j) = find_ell l.
Proof.
  induction l as [|i l IH]; [|cbn; now rewrite IH].
  cbn. induction j as [|j IH]; [reflexivity|]. cbn in *. now rewrite IH.
Qed.

Lemma find_ell_lt l k : find_ell l = Some k -> (k < length l)%nat.
Proof.
  revert k. induction l as [|i l IH]; intros k; [discriminate|]. cbn [find_ell length].
  destruct (is_ell i); [intros [= <-]; lia|]. destruct (find_ell l) as [k0|]; [|discriminate]. intros [= <-]. specialize (IH k0 eq_refl). lia.
Qed.

Lemma replace_nones l j nd : replace_ellipsis (l ++ repeat INone j) nd = replace_ellipsis l nd ++ repeat INone j.
Proof.
  unfold replace_ellipsis. rewrite find_ell_nones, number_nones. destruct (find_ell l) as [k|] eqn:E; [|reflexivity].
  pose proof (find_ell_lt _ _ E). rewrite firstn_app, skipn_app.
  replace (k - length l)%nat with O by lia. replace (S k - length l)%nat with O by lia.
  cbn [firstn skipn]. rewrite app_nil_r. now rewrite <- !app_assoc.
Qed.

Lemma describe_nones nms j : forall d, describe_items nms d (repeat INone j) = Ok ([], repeat None j).
Proof. induction j as [|j IH]; intros d; [reflexivity|]. cbn. now rewrite IH. Qed.

Lemma describe_items_app nms a : forall d b,
  describe_items nms d (a ++ b) = do '(f, n) <- describe_items nms d a; do '(f', n') <- describe_items nms (d + length a) b; Ok (f ++ f', n ++ n').
Proof.
  induction a as [|i a IH]; intros d b; cbn [app describe_items length].
  - rewrite Nat.add_0_r. cbn [bind]. destruct (describe_items nms d b) as [[f n]|]; reflexivity.
  - destruct (describe_item nms d i) as [[f n]|]; [|reflexivity]. cbn [bind]. rewrite IH.
    destruct (describe_items nms (S d) a) as [[f1 n1]|]; [|reflexivity]. cbn [bind].
    replace (S d + length a)%nat with (d + S (length a))%nat by lia.
    destruct (describe_items nms (d + S (length a)) b) as [[f2 n2]|]; [|reflexivity]. cbn [bind]. now rewrite !app_assoc.
Qed.

(** determine_dims: the Nones add unnamed dimensions between the names of the items and the remaining names. *)
Lemma determine_nones nms l j items aff nn multi : determine_dims nms (Tuple l) = Ok (items, aff, nn, multi) ->
  exists n1 n2, nn = n1 ++ n2 /\ length n2 = Nat.min (length nms) (length nms - number_of_indexed items) /\ multi = true /\
    determine_dims nms (Tuple (l ++ repeat INone j)) = Ok (items ++ repeat INone j, aff, n1 ++ repeat None j ++ n2, true).
Proof.
  cbn [determine_dims]. rewrite replace_nones, describe_items_app.
  destruct (describe_items nms 0 (replace_ellipsis l (length nms))) as [[f n]|]; [|discriminate]. cbn [bind].
  rewrite describe_nones. cbn [bind]. rewrite app_nil_r, number_nones.
  destruct (replace_ellipsis l (length nms)) as [|i0 r] eqn:ER; [discriminate|]. intros H. injection H as <- <- <- <-.
  eexists n, _. split; [reflexivity|]. split; [rewrite skipn_length; lia|]. split; [reflexivity|].
  cbn [app]. now rewrite <- app_assoc.
Qed.

Lemma nth_nones l j d : nth d (l ++ repeat INone j) INone = nth d l INone.
Proof.
  destruct (Nat.lt_ge_cases d (length l)) as [H|H]; [now apply app_nth1|].
  rewrite app_nth2 by auto. rewrite nth_repeat. symmetry. now apply nth_overflow.
Qed.

Lemma replaced_number l items nd : spreads nd (Tuple l) items -> Forall plain_item items ->
  (nd - number_of_indexed (replace_ellipsis l nd))%nat = after nd l.
Proof.
  intros HS HPl. inversion HS as [l0 He HL Hne|l1 l2 He1 He2 HL Hne| |]; subst.
  - unfold replace_ellipsis. rewrite find_ell_none by auto. apply Forall_app in HPl as [HPl _].
    rewrite number_of_indexed_plain by auto. unfold after. now rewrite has_dots_false.
  - assert (HD : has_dots (l1 ++ IEll :: l2) = true) by (apply has_dots_In, in_or_app; right; now left).
    unfold after. rewrite HD. pose proof HPl as HPl'. apply Forall_app in HPl' as [HPl1 HPl2]. apply Forall_app in HPl2 as [_ HPl2].
    unfold replace_ellipsis. rewrite find_ell_here by auto.
    rewrite firstn_len_app. rewrite skipn_app. rewrite (skipn_all2 l1) by lia. replace (S (length l1) - length l1)%nat with 1%nat by lia. cbn [skipn app].
    assert (NN : number_of_indexed (l1 ++ IEll :: l2) = (length l1 + S (length l2))%nat).
    { unfold number_of_indexed. rewrite filter_app, app_length. cbn [filter is_none negb length].
      rewrite <- (number_of_indexed_plain l1), <- (number_of_indexed_plain l2) by auto. reflexivity. }
    rewrite NN. rewrite number_of_indexed_plain.
    + rewrite !app_length, repeat_length. lia.
    + apply Forall_app. split; [auto|]. apply Forall_app. split; [|auto]. clear. induction (Z.to_nat _); constructor; auto. exact I.
Qed.

(** Nones after the other items add unnamed dimensions of size one and change nothing else. *)
Lemma getitem_nones x l items ss j y : length (names x) = length (shp (tn x)) -> Forall (fun n => 0 <= n) (shp (tn x)) ->
  spreads (ndim (tn x)) (Tuple l) items -> picks_all (shp (tn x)) items ss ->
  getitem x (Tuple l) = Ok y ->
  exists y', getitem x (Tuple (l ++ repeat INone j)) = Ok y' /\ smeta y' = smeta y /\
    names y' = firstn (ndim (tn y) - after (ndim (tn x)) l) (names y) ++ repeat None j ++ skipn (ndim (tn y) - after (ndim (tn x)) l) (names y) /\
    new_dims (ndim (tn y) - after (ndim (tn x)) l) j (tn y) (tn y').
Proof.
  intros HR Hn HS HP. pose proof (picks_all_plain _ _ _ HP) as HPl.
  destruct (torch_apply_nones (tn x) l items ss j Hn HS HP) as (t1 & t2 & A1 & B1 & A2 & B2).
  unfold getitem. unfold torch_getitem at 1 2. cbv zeta.
  rewrite !filter_nones by reflexivity. rewrite specified_nones.
  destruct (_ || _); [discriminate|]. destruct (Nat.ltb (ndim (tn x)) (specified l)); [discriminate|].
  rewrite A1, A2. cbn [bind].
  destruct (determine_dims (names x) (Tuple l)) as [[[[items' aff] nn] multi]|] eqn:DD; [|discriminate]. cbn [bind].
  assert (EI : items' = replace_ellipsis l (length (names x))).
  { cbn [determine_dims] in DD. destruct (describe_items _ _ _) as [[f n]|]; [|discriminate]. cbn [bind] in DD.
    destruct (replace_ellipsis l (length (names x))); [discriminate|]. now injection DD as <- <- <- <-. }
  destruct (determine_nones _ _ j _ _ _ _ DD) as (n1 & n2 & -> & Ln & -> & DN). rewrite DN. cbn [bind]. subst items'.
  assert (EA : length n2 = after (ndim (tn x)) l).
  { rewrite Ln, HR. fold (ndim (tn x)). rewrite (replaced_number l items) by auto. unfold after. destruct (has_dots l); lia. }
  destruct (names_index (Some BATCH) (names x)) as [bd|]; [|discriminate].
  destruct (names_index (Some LENGTH) (names x)) as [ld|]; [|discriminate]. cbn [bind].
  assert (N2 : ndim t2 = (ndim t1 + j)%nat).
  { destruct B2 as [B2 _]. unfold ndim at 1. rewrite B2, !app_length, repeat_length, firstn_length, skipn_length. unfold ndim. lia. }
  pose proof (names_dup_nones n1 j n2) as ND. unfold refine_names. unfold dname in *. rewrite N2, ND, !app_length, repeat_length.
  destruct (Nat.eqb_spec (length n1 + length n2) (ndim t1)) as [EL|]; [|discriminate].
  replace (Nat.eqb (length n1 + (j + length n2)) (ndim t1 + j)) with true by lia. cbn [andb].
  destruct (names_dup (n1 ++ n2)); [discriminate|]. cbn [negb bind].
  rewrite !nth_nones.
  assert (F : firstn (ndim t1 - after (ndim (tn x)) l) (n1 ++ n2) = n1 /\ skipn (ndim t1 - after (ndim (tn x)) l) (n1 ++ n2) = n2).
  { replace (ndim t1 - after (ndim (tn x)) l)%nat with (length n1) by lia. split; [apply firstn_len_app|apply skipn_len_app]. }
  destruct F as [F1 F2].
  destruct (negb (nat_mem bd aff || nat_mem ld aff)).
  - intros H; injection H as <-. eexists. split; [reflexivity|]. cbn [smeta names tn]. rewrite F1, F2. auto.
  - destruct (index_pair _ _ _) as [m'|]; [|discriminate]. cbn [bind]. intros H; injection H as <-.
    eexists. split; [reflexivity|]. cbn [smeta names tn]. rewrite F1, F2. auto.
Qed.

(** Only Nones. *)
Lemma getitem_only_nones x bd ld j : length (names x) = length (shp (tn x)) -> names_distinct (names x) ->
  nth_error (names x) bd = Some (Some "B"%string) -> nth_error (names x) ld = Some (Some "L"%string) ->
  exists y', getitem x (Tuple (repeat INone (S j))) = Ok y' /\ smeta y' = smeta x /\
    names y' = repeat None (S j) ++ names x /\ new_dims 0 (S j) (tn x) (tn y').
Proof.
  intros HR HD HB HL.
  destruct (torch_nones (S j) (tn x) (ndim (tn x)) O [] (shp (tn x)) eq_refl eq_refl) as (t2 & A2 & B2 & C2).
  pose proof (specified_nones [] (S j) : specified (repeat INone (S j)) = O) as S0.
  pose proof (filter_nones is_ell [] (S j) eq_refl) as F1. pose proof (filter_nones is_adv [] (S j) eq_refl) as F2.
  cbn [app filter] in F1, F2.
  unfold getitem, torch_getitem. cbv zeta. rewrite F1, F2. cbn [length Nat.ltb Nat.leb orb].
  rewrite S0. replace (Nat.ltb (ndim (tn x)) 0) with false by (symmetry; apply Nat.ltb_ge; lia).
  rewrite Nat.sub_0_r, A2. cbn [bind].
  cbn [determine_dims]. pose proof (replace_nones [] (S j) (length (names x))) as R. cbn [app] in R. rewrite R.
  change (replace_ellipsis [] (length (names x))) with (@nil item). cbn [app].
  rewrite describe_nones. cbn [bind]. pose proof (number_nones [] (S j)) as N0. cbn [app] in N0. rewrite N0.
  change (number_of_indexed []) with O. cbn [repeat]. rewrite Nat.sub_0_r, Nat.sub_diag. cbn [skipn].
  unfold BATCH, LENGTH. cbn [bind]. rewrite (names_index_ok _ _ _ HB HD), (names_index_ok _ _ _ HL HD). cbn [bind nat_mem existsb orb negb].
  change (None :: repeat None j) with (@repeat dname None (S j)).
  unfold refine_names. assert (N2 : ndim t2 = (S j + length (names x))%nat).
  { unfold ndim. rewrite B2. cbn [app]. rewrite app_length, repeat_length. lia. }
  pose proof (names_dup_nones [] (S j) (names x)) as ND. cbn [app] in ND.
  apply names_dup_false in HD. unfold dname in *. rewrite N2, app_length, repeat_length, Nat.eqb_refl, ND, HD. cbn [negb bind].
  eexists. split; [reflexivity|]. cbn [smeta names tn]. split; [reflexivity|]. split; [reflexivity|].
  split; [exact B2|]. intros ia ic Hia. now apply C2.
Qed.

(* ---------- Ellipsis ---------- *)

(** Several Ellipsis at the end are as good as one. *)
Lemma ell_positions_app a b : ell_positions (a ++ b) = ell_positions a ++ map (fun k => (length a + k)%nat) (ell_positions b).
Proof.
  unfold ell_positions. rewrite app_length, seq_app, Nat.add_0_l.
  assert (C : forall (s : list nat) (s' : list nat), length s = length a -> combine (s ++ s') (a ++ b) = combine s a ++ combine s' b).
  { clear. induction a as [|i a IH]; intros [|k s] s' H; try discriminate; [reflexivity|]. cbn. f_equal. apply IH. now injection H. }
  rewrite C by apply seq_length. rewrite filter_app, map_app. f_equal.
  assert (G : forall b k s, map fst (filter (fun p => x_ell (snd p)) (combine (seq (k + s) (length b)) b)) =
     map (fun q => (k + q)%nat) (map fst (filter (fun p => x_ell (snd p)) (combine (seq s (length b)) b)))).
  { clear. induction b as [|i b IH]; intros k s; [reflexivity|]. cbn [length seq combine filter snd].
    replace (S (k + s)) with (k + S s)%nat by lia. destruct (x_ell i); cbn [map fst]; rewrite IH; reflexivity. }
  specialize (G b (length a) O). now rewrite Nat.add_0_r in G.
Qed.

Lemma ell_positions_dots k : ell_positions (repeat (Plain IEll) k) = seq 0 k.
Proof.
  unfold ell_positions. rewrite repeat_length.
  assert (G : forall s, map fst (filter (fun p => x_ell (snd p)) (combine (seq s k) (repeat (Plain IEll) k))) = seq s k).
  { induction k as [|k IH]; intros s; [reflexivity|]. cbn. now rewrite IH. }
  apply G.
Qed.

Lemma filter_dots_ell l : filter dots l = filter x_ell l.
Proof. apply filter_ext. intros i. destruct i as [i| |]; [destruct i|..]; reflexivity. Qed.

Lemma ell_positions_end l1 k : filter dots l1 = [] -> ell_positions (l1 ++ repeat (Plain IEll) k) = seq (length l1) k.
Proof.
  intros H. rewrite filter_dots_ell in H. rewrite ell_positions_app, (ell_positions_nil l1 H), ell_positions_dots. cbn [app].
  assert (G : forall s, map (fun q => (length l1 + q)%nat) (seq s k) = seq (length l1 + s) k).
  { clear. induction k as [|k IH]; intros s; [reflexivity|]. cbn. rewrite IH. f_equal. f_equal. lia. }
  rewrite G. f_equal. lia.
Qed.

Lemma nth_seq_S n k i : (i < k)%nat -> nth i (seq n k) O = (n + i)%nat.
Proof. intros H. now apply seq_nth. Qed.

Lemma remove_last_dot l1 k : remove_nth (length l1 + k) (l1 ++ repeat (Plain IEll) (S k)) = l1 ++ repeat (Plain IEll) k.
Proof.
  replace (repeat (Plain IEll) (S k)) with (repeat (Plain IEll) k ++ [Plain IEll]).
  2:{ clear. induction k as [|k IH]; [reflexivity|]. cbn [repeat app]. now rewrite IH. }
  rewrite app_assoc. replace (length l1 + k)%nat with (length (l1 ++ repeat (Plain IEll) k)) by (rewrite app_length, repeat_length; lia).
  rewrite remove_nth_app, app_nil_r. reflexivity.
Qed.

Lemma collapse_end l1 k : filter dots l1 = [] -> collapse (l1 ++ repeat (Plain IEll) (S k)) (seq (length l1) (S k)) = l1 ++ [Plain IEll].
Proof.
  intros H. unfold collapse. rewrite seq_length. replace (S k - 1)%nat with k by lia.
  remember (seq (length l1) (S k)) as e eqn:Ee.
  assert (G : forall w s, (s + w = k)%nat ->
    fold_right (fun i acc => if Nat.eqb (S (nth i e O)) (nth (S i) e O) then remove_nth (nth (S i) e O) acc else acc)
               (l1 ++ repeat (Plain IEll) (S k)) (seq s w) = l1 ++ repeat (Plain IEll) (S s)).
  { induction w as [|w IH]; intros s Hs.
    - replace s with k by lia. reflexivity.
    - cbn [seq fold_right]. rewrite IH by lia. rewrite Ee, !nth_seq_S by lia.
      replace (Nat.eqb (S (length l1 + s)) (length l1 + S s)) with true by (symmetry; apply Nat.eqb_eq; lia).
      apply remove_last_dot. }
  rewrite (G k O) by lia. reflexivity.
Qed.

Lemma x_replace_end l1 k nd : filter dots l1 = [] -> x_replace (l1 ++ repeat (Plain IEll) (S k)) nd = x_replace (l1 ++ [Plain IEll]) nd.
Proof.
  intros H. unfold x_replace. pose proof (ell_positions_end l1 1 H) as E1. cbn [repeat] in E1.
  rewrite (ell_positions_end l1 (S k) H), E1, seq_length. cbn [seq length Nat.ltb Nat.leb].
  destruct k as [|k]; [reflexivity|]. cbn [Nat.ltb Nat.leb].
  rewrite collapse_end by auto. rewrite E1. cbn [length Nat.ltb Nat.leb]. reflexivity.
Qed.

Lemma x_apply_dots l1 k gap : forall t d, x_apply t d gap (l1 ++ repeat (Plain IEll) k) = x_apply t d gap l1.
Proof.
  induction l1 as [|i l1 IH]; intros t d; cbn [app x_apply].
  - revert t d. induction k as [|k IHk]; intros t d; [reflexivity|]. cbn [repeat x_apply in_place bind]. apply IHk.
  - destruct (in_place t d gap i) as [[t' d']|]; [|reflexivity]. cbn [bind]. apply IH.
Qed.

Lemma x_basic_dots l1 k gap : forall t d, x_basic t d gap (l1 ++ repeat (Plain IEll) k) = x_basic t d gap l1.
Proof.
  induction l1 as [|i l1 IH]; intros t d; cbn [app x_basic].
  - revert t d. induction k as [|k IHk]; intros t d; [reflexivity|]. cbn [repeat x_basic x_adv is_adv in_place bind]. apply IHk.
  - destruct (x_adv i); [now rewrite IH|]. destruct (in_place t d gap i) as [[t' d']|]; [|reflexivity]. cbn [bind]. apply IH.
Qed.

Lemma mask_then_dots l1 k : mask_then_basic (l1 ++ repeat (Plain IEll) k) = mask_then_basic l1.
Proof.
  assert (R : forall f, f (Plain IEll) = false -> existsb f (repeat (Plain IEll) k) = false) by (intros f Hf; induction k; cbn; rewrite ?Hf; auto).
  induction l1 as [|i l1 IH].
  - cbn. induction k as [|k IHk]; [reflexivity|]. apply IHk. intros f Hf. specialize (R f Hf). cbn in R. rewrite Hf in R. exact R.
  - cbn [app mask_then_basic]. destruct i as [i|m|m]; try exact IH. rewrite IH, existsb_app, R by reflexivity. now rewrite orb_false_r.
Qed.

Lemma x_torch_dots t l1 k : x_torch_getitem t (XTuple (l1 ++ repeat (Plain IEll) k)) = x_torch_getitem t (XTuple l1).
Proof.
  unfold x_torch_getitem. cbv zeta. rewrite mask_then_dots, existsb_app.
  assert (R0 : existsb rank_0 (repeat (Plain IEll) k) = false) by (clear; induction k; auto). rewrite R0, orb_false_r.
  assert (SP : x_specified (l1 ++ repeat (Plain IEll) k) = x_specified l1).
  { unfold x_specified. rewrite map_app, list_sum_app. assert (Z : list_sum (map consumes (repeat (Plain IEll) k)) = O) by (clear; induction k; auto).
    rewrite Z. lia. }
  assert (FA : filter x_adv (l1 ++ repeat (Plain IEll) k) = filter x_adv l1).
  { rewrite filter_app. assert (Z : filter x_adv (repeat (Plain IEll) k) = []) by (clear; induction k; auto). now rewrite Z, app_nil_r. }
  rewrite SP, FA, x_apply_dots, x_basic_dots. reflexivity.
Qed.

Lemma getitem_dots x l1 k : filter dots l1 = [] ->
  x_getitem x (XTuple (l1 ++ repeat (Plain IEll) (S k))) = x_getitem x (XTuple (l1 ++ [Plain IEll])).
Proof.
  intros H. unfold x_getitem. pose proof (x_torch_dots (tn x) l1 1) as T1. cbn [repeat] in T1. rewrite x_torch_dots, T1.
  destruct (x_torch_getitem (tn x) (XTuple l1)); [|reflexivity]. cbn [bind x_determine]. now rewrite x_replace_end.
Qed.

End None.

(** Proofs: which index expressions give a StreamTensor at all; the number of names against the number of dimensions. *)

From Coq Require Import String List ZArith Bool Lia.
From Coq Require Import ZifyBool.
From Verif Require Import Py Meta Named NamedSpec NamedProofs NamedSelProofs NamedIndexProofs Gather FullIndex FullIndexSpec FullIndexProofs.
Import ListNotations.
Open Scope Z_scope.

(** Change of the number of dimensions, and number of names. *)
Definition delta (i : xitem) : Z :=
  match i with
  | Plain INone => 1
  | Plain (IInt _) | Plain (IScalar _) => -1
  | Plain _ => 0
  | XMask m => 1 - Z.of_nat (ndim m)
  | XInts m => Z.of_nat (ndim m) - 1
  end.
Definition gives (i : xitem) : Z :=
  match i with
  | Plain (IInt _) => 0
  | Plain _ | XMask _ => 1
  | XInts m => Z.of_nat (ndim m)
  end.
Definition total (f : xitem -> Z) (l : list xitem) : Z := zsum (map f l).

Lemma total_cons f i l : total f (i :: l) = f i + total f l.
Proof. reflexivity. Qed.
Lemma total_app f a b : total f (a ++ b) = total f a + total f b.
Proof. induction a as [|i a IH]; [reflexivity|]. cbn [app]. rewrite !total_cons, IH. lia. Qed.

Section Rank.
Context {V : Type}.
Implicit Types t : @tensor V.

Lemma list_eqb_Z a : forall b, list_eqb Z.eqb a b = true -> a = b.
Proof.
  induction a as [|x a IH]; intros [|y b] H; try discriminate; auto.
  cbn in H. apply andb_true_iff in H as [H1 H2]. apply Z.eqb_eq in H1. f_equal; auto.
Qed.

Lemma in_place_ndim t d gap i t' d' : rank_0 i = false -> in_place t d gap i = Ok (t', d') ->
  Z.of_nat (ndim t') = Z.of_nat (ndim t) + delta i.
Proof.
  intros H0 H. destruct i as [i|m|m].
  - destruct i; cbn [in_place torch_apply bind delta] in *.
    + destruct (Nat.ltb (ndim t) d) eqn:E; [discriminate|]. injection H as <- <-. apply Nat.ltb_ge in E. unfold ndim in *. cbn [shp t_unsqueeze].
      unfold insert_nth. rewrite app_length. cbn [length]. rewrite firstn_length, skipn_length. lia.
    + injection H as <- <-. lia.
    + destruct (Nat.leb (ndim t) d) eqn:E; [discriminate|]. apply Nat.leb_gt in E.
      destruct (py_getitem _ _); [|discriminate]. injection H as <- <-. unfold ndim in *. cbn [shp t_select].
      unfold remove_nth. rewrite app_length, firstn_length, skipn_length. lia.
    + destruct (Nat.leb (ndim t) d) eqn:E; [discriminate|].
      destruct (tensor_slice _ _); [|discriminate]. injection H as <- <-. unfold ndim. cbn [shp t_take]. rewrite list_set_length. lia.
    + destruct (Nat.leb (ndim t) d) eqn:E; [discriminate|].
      destruct (py_gather _ _); [|discriminate]. injection H as <- <-. unfold ndim. cbn [shp t_take]. rewrite list_set_length. lia.
    + destruct (Nat.leb (ndim t) d) eqn:E; [discriminate|].
      destruct (py_gather _ _); [|discriminate]. injection H as <- <-. unfold ndim. cbn [shp t_take]. rewrite list_set_length. lia.
    + destruct (Nat.leb (ndim t) d) eqn:E; [discriminate|].
      destruct (tensor_mask _ _); [|discriminate]. injection H as <- <-. unfold ndim. cbn [shp t_take]. rewrite list_set_length. lia.
    + destruct (Nat.leb (ndim t) d) eqn:E; [discriminate|]. apply Nat.leb_gt in E.
      destruct (py_getitem _ _); [|discriminate]. injection H as <- <-. unfold ndim in *. cbn [shp t_select].
      unfold remove_nth. rewrite app_length, firstn_length, skipn_length. lia.
  - cbn [in_place rank_0] in *. apply Nat.eqb_neq in H0. destruct (list_eqb _ _ _) eqn:E; cbn [negb] in H; [|discriminate].
    injection H as <- <-. apply list_eqb_Z in E. apply (f_equal (@length Z)) in E. unfold ndim in *. cbn [shp delta] in *.
    rewrite firstn_length, skipn_length in E. rewrite app_length. cbn [length]. rewrite firstn_length, skipn_length. unfold ndim. lia.
  - cbn [in_place rank_0] in *. apply Nat.eqb_neq in H0. destruct (Nat.leb (ndim t) d) eqn:E; [discriminate|]. apply Nat.leb_gt in E.
    destruct (entries_wrap _ _); [|discriminate]. injection H as <- <-.
    change (Z.of_nat (length (firstn d (shp t) ++ shp m ++ skipn (S d) (shp t))) = Z.of_nat (ndim t) + (Z.of_nat (ndim m) - 1)).
    rewrite !app_length, firstn_length, skipn_length. unfold ndim in *. lia.
Qed.

Lemma x_apply_ndim l : forall t d gap t', existsb rank_0 l = false -> x_apply t d gap l = Ok t' ->
  Z.of_nat (ndim t') = Z.of_nat (ndim t) + total delta l.
Proof.
  induction l as [|i l IH]; intros t d gap t' H0 H; cbn [x_apply] in H.
  - injection H as <-. unfold total. cbn. lia.
  - cbn [existsb] in H0. apply orb_false_iff in H0 as [H0 H1].
    destruct (in_place t d gap i) as [[t1 d1]|] eqn:E; [|discriminate]. cbn [bind] in H.
    rewrite (IH _ _ _ _ H1 H), (in_place_ndim _ _ _ _ _ _ H0 E), total_cons. lia.
Qed.

(* ---------- several lists or tensors ---------- *)

Definition basic (i : xitem) : bool := negb (x_adv i).

Inductive spaced : nat -> list (nat * xitem) -> Prop :=
| Sp_nil d : spaced d []
| Sp_cons d e i a : (d <= e)%nat -> spaced (e + consumes i) a -> spaced d ((e, i) :: a).

Lemma spaced_weaken d d' a : (d <= d')%nat -> spaced d' a -> spaced d a.
Proof. intros H S. inversion S; subst; constructor; auto. lia. Qed.

Lemma in_place_next t d gap i t' d' : in_place t d gap i = Ok (t', d') -> (d <= d')%nat.
Proof.
  destruct i as [i|m|m].
  - destruct i; cbn [in_place]; intros H.
    + destruct (Nat.ltb (ndim t) d); [discriminate|]. injection H as <- <-. lia.
    + injection H as <- <-. lia.
    + destruct (torch_apply _ _ _ _); [|discriminate]. injection H as <- <-. lia.
    + destruct (torch_apply _ _ _ _); [|discriminate]. injection H as <- <-. lia.
    + destruct (torch_apply _ _ _ _); [|discriminate]. injection H as <- <-. lia.
    + destruct (torch_apply _ _ _ _); [|discriminate]. injection H as <- <-. lia.
    + destruct (torch_apply _ _ _ _); [|discriminate]. injection H as <- <-. lia.
    + destruct (torch_apply _ _ _ _); [|discriminate]. injection H as <- <-. lia.
  - cbn [in_place]. destruct (negb _); [discriminate|]. intros H. injection H as _ <-. lia.
  - cbn [in_place]. destruct (Nat.leb _ _); [discriminate|]. destruct (negb _); [discriminate|]. intros H. injection H as _ <-. lia.
Qed.

Lemma x_basic_facts l : forall t d gap t' a, existsb rank_0 l = false -> x_basic t d gap l = Ok (t', a) ->
  Z.of_nat (ndim t') = Z.of_nat (ndim t) + total delta (filter basic l) /\ map snd a = filter x_adv l /\ spaced d a.
Proof.
  induction l as [|i l IH]; intros t d gap t' a H0 H; cbn [x_basic] in H.
  - injection H as <- <-. split; [unfold total; cbn; lia|]. split; [reflexivity|constructor].
  - cbn [existsb] in H0. apply orb_false_iff in H0 as [H0 H1]. cbn [filter]. unfold basic at 1.
    destruct (x_adv i) eqn:EA; cbn [negb].
    + destruct (x_basic t _ gap l) as [[t1 a1]|] eqn:E; [|discriminate]. cbn [bind] in H. injection H as <- <-.
      destruct (IH _ _ _ _ _ H1 E) as (A & B & C). split; [exact A|]. split; [cbn; now rewrite B|]. constructor; auto.
    + destruct (in_place t d gap i) as [[t1 d1]|] eqn:E; [|discriminate]. cbn [bind] in H.
      destruct (IH _ _ _ _ _ H1 H) as (A & B & C). split.
      * rewrite A, (in_place_ndim _ _ _ _ _ _ H0 E), total_cons. lia.
      * split; [exact B|]. eapply spaced_weaken; [|exact C]. eapply in_place_next; eauto.
Qed.

Lemma expand_dims t d i e : x_adv i = true -> expand t (d, i) = Ok e -> map fst e = seq d (consumes i) /\
  Forall (fun p => Z.of_nat (ndim (snd p)) <= gives i) e.
Proof.
  intros HA. destruct i as [i|m|m]; cbn [expand].
  - destruct i; try discriminate; intros H.
    + injection H as <-. split; [reflexivity|]. constructor; [cbn; lia|constructor].
    + injection H as <-. split; [reflexivity|]. constructor; [cbn; lia|constructor].
    + destruct (_ =? _); [|discriminate]. injection H as <-. split; [reflexivity|]. constructor; [cbn; lia|constructor].
  - destruct (list_eqb _ _ _); [|discriminate]. intros H. injection H as <-. split.
    + rewrite map_map. cbn [fst consumes]. generalize (ndim m) as k. intros k.
      enough (G : forall s, map (fun j => (d + j)%nat) (seq s k) = seq (d + s) k) by (rewrite G, Nat.add_0_r; reflexivity).
      induction k as [|k IH]; intros s; [reflexivity|]. cbn [seq map]. rewrite IH. f_equal. f_equal. lia.
    + apply Forall_forall. intros p Hp. apply in_map_iff in Hp as (j & <- & _). cbn. lia.
  - intros H. injection H as <-. split; [reflexivity|]. constructor; [cbn; lia|constructor].
Qed.

Lemma seqM_cons_inv {A} (r : res A) l v : seqM (r :: l) = Ok v -> exists a v', r = Ok a /\ seqM l = Ok v' /\ v = a :: v'.
Proof.
  cbn [seqM]. destruct r as [a|]; [|discriminate]. cbn [bind]. destruct (seqM l) as [v'|]; [|discriminate]. cbn [bind].
  intros H. injection H as <-. eauto.
Qed.

Lemma max_rank_app a b : max_rank (a ++ b) = Nat.max (max_rank a) (max_rank b).
Proof. induction a as [|p a IH]; [reflexivity|]. cbn [app max_rank fold_right]. fold (max_rank (a ++ b)). fold (max_rank a). rewrite IH. lia. Qed.

Lemma max_rank_le a g : 0 <= g -> Forall (fun p => Z.of_nat (ndim (snd p)) <= g) a -> Z.of_nat (max_rank a) <= g.
Proof. intros Hg H. induction H as [|p a Hp Ha IH]; [cbn; lia|]. cbn [max_rank fold_right]. fold (max_rank a). lia. Qed.

Lemma adv_gives i : rank_0 i = false -> x_adv i = true -> 1 <= gives i /\ (1 <= consumes i)%nat.
Proof.
  intros H0 HA. destruct i as [i|m|m]; [destruct i; try discriminate; cbn; lia| |]; cbn [rank_0 gives consumes] in *; apply Nat.eqb_neq in H0; lia.
Qed.

Lemma expand_all t a : forall d es, Forall (fun p => x_adv (snd p) = true /\ rank_0 (snd p) = false) a -> spaced d a ->
  mapM (expand t) a = Ok es ->
  (Forall (fun e => (d <= e)%nat) (map fst (List.concat es)) /\ NoDup (map fst (List.concat es))) /\
  length (map fst (List.concat es)) = list_sum (map consumes (map snd a)) /\
  (a <> [] -> Z.of_nat (max_rank (List.concat es)) + zlen a - 1 <= total gives (map snd a)) /\
  zlen a <= total gives (map snd a).
Proof.
  induction a as [|[e i] a IH]; intros d es HA HS H.
  - cbn in H. injection H as <-. cbn. split; [split; constructor|]. split; [reflexivity|]. split; [congruence|]. unfold zlen. cbn. lia.
  - unfold mapM in H. cbn [map] in H. apply seqM_cons_inv in H as (e1 & es' & E1 & E2 & ->). inversion HA as [|? ? [A1 A2] HA']; subst.
    inversion HS as [|? ? ? ? Hd HS']; subst. cbn [snd] in A1, A2.
    destruct (expand_dims _ _ _ _ A1 E1) as [M1 M2]. destruct (IH _ _ HA' HS' E2) as ((F1 & F2) & L & G & G').
    destruct (adv_gives _ A2 A1) as [g1 g2].
    cbn [List.concat]. rewrite map_app, M1. split.
    + split.
      * apply Forall_app. split; [apply Forall_forall; intros x Hx; apply in_seq in Hx; lia|].
        eapply Forall_impl; [|exact F1]. cbn. intros; lia.
      * clear -F1 F2. revert F1 F2. generalize (map fst (List.concat es')) as q. generalize (consumes i) as k. intros k q F1 F2.
        revert e F1. induction k as [|k IHk]; intros e F1; [exact F2|]. cbn [seq app]. constructor.
        -- intros X. apply in_app_or in X as [X|X]; [apply in_seq in X; lia|]. rewrite Forall_forall in F1. specialize (F1 _ X). lia.
        -- apply IHk. eapply Forall_impl; [|exact F1]. cbn. intros; lia.
    + cbn [map snd list_sum fold_right]. rewrite app_length, seq_length, L. split; [reflexivity|].
      rewrite !total_cons, max_rank_app. cbn [snd]. unfold zlen in *. cbn [length].
      assert (Z.of_nat (max_rank e1) <= gives i) by (apply max_rank_le; [lia|exact M2]).
      split; [|lia]. intros _. destruct a as [|p a]; [|specialize (G ltac:(discriminate)); lia].
      cbn in E2. injection E2 as <-. unfold total; cbn. lia.
Qed.

Lemma others_length {A} ds (l : list A) : NoDup ds -> Forall (fun d => (d < length l)%nat) ds ->
  (length (others ds l) + length ds = length l)%nat.
Proof.
  intros HN HF. unfold others. rewrite map_length.
  assert (E : forall k, length (filter (fun p => negb (nat_mem (fst p) ds)) (combine (seq k (length l)) l))
            = length (filter (fun d => negb (nat_mem d ds)) (seq k (length l)))).
  { clear. induction l as [|a l IH]; intros k; [reflexivity|]. cbn [length seq combine filter fst].
    destruct (nat_mem k ds); cbn [negb length]; now rewrite IH. }
  rewrite E. clear E.
  assert (P : forall (f : nat -> bool) q, (length (filter f q) + length (filter (fun d => negb (f d)) q) = length q)%nat).
  { clear. induction q as [|a q IH]; [reflexivity|]. cbn [filter]. destruct (f a); cbn [negb length]; lia. }
  specialize (P (fun d => nat_mem d ds) (seq 0 (length l))). rewrite seq_length in P.
  enough (length (filter (fun d => nat_mem d ds) (seq 0 (length l))) = length ds) by lia.
  apply Permutation.Permutation_length. apply Permutation.NoDup_Permutation; [apply NoDup_filter, seq_NoDup|exact HN|].
  intros x. rewrite filter_In, in_seq. unfold nat_mem. rewrite existsb_exists. split.
  - intros (_ & y & Hy & E). apply Nat.eqb_eq in E. now subst.
  - intros H. split; [rewrite Forall_forall in HF; specialize (HF _ H); lia|]. exists x. split; [auto|apply Nat.eqb_refl].
Qed.

Lemma bcast_all_length r a s : bcast_all r a = Ok s -> length s = r.
Proof.
  revert s. induction a as [|[d m] a IH]; intros s H; cbn [bcast_all] in H.
  - injection H as <-. apply repeat_length.
  - destruct (bcast_all r a) as [s0|]; [|discriminate]. cbn [bind] in H. specialize (IH _ eq_refl).
    destruct (bcast_sizes _ _) eqn:E; [|discriminate]. injection H as <-.
    assert (G : forall x y z, bcast_sizes x y = Ok z -> length z = length y).
    { clear. induction x as [|p x IH]; intros [|q y] z H; cbn in H; try discriminate.
      - now injection H as <-.
      - destruct (bcast_size p q); [|discriminate]. cbn in H. destruct (bcast_sizes x y) eqn:E; [|discriminate].
        injection H as <-. cbn. f_equal. eauto. }
    rewrite (G _ _ _ E). exact IH.
Qed.

Lemma x_together_ndim t d a t' : Forall (fun p => x_adv (snd p) = true /\ rank_0 (snd p) = false) a -> spaced d a -> a <> [] ->
  x_together t a = Ok t' ->
  Z.of_nat (ndim t') <= Z.of_nat (ndim t) - Z.of_nat (list_sum (map consumes (map snd a))) + total gives (map snd a) - zlen a + 1.
Proof.
  intros HA HS Hne H. unfold x_together in H.
  destruct (mapM (expand t) a) as [es|] eqn:E; [|discriminate]. cbn [bind] in H.
  destruct (expand_all _ _ _ _ HA HS E) as ((_ & F2) & L & G & _). specialize (G Hne).
  destruct (bcast_all _ _) as [s|] eqn:Es; [|discriminate]. cbn [bind] in H. apply bcast_all_length in Es.
  destruct (forallb _ _) eqn:Ef; cbn [negb] in H; [|discriminate]. injection H as <-.
  unfold ndim at 1. cbn [shp]. rewrite !app_length, Es.
  set (n := match _ with true => _ | false => _ end). clearbody n.
  pose proof (firstn_skipn n (others (map fst (List.concat es)) (shp t))) as FS. apply (f_equal (@length Z)) in FS. rewrite app_length in FS.
  assert (O := others_length (map fst (List.concat es)) (shp t) F2).
  assert (HF : Forall (fun d => (d < length (shp t))%nat) (map fst (List.concat es))).
  { apply Forall_forall. intros x Hx. apply in_map_iff in Hx as (p & <- & Hp). rewrite forallb_forall in Ef.
    specialize (Ef _ Hp). apply andb_true_iff in Ef as [Ef _]. now apply Nat.ltb_lt in Ef. }
  specialize (O HF). rewrite L in O. fold (ndim t) in O. lia.
Qed.

(* ---------- number of names ---------- *)

Definition counted (i : xitem) : Z := if x_none i then 0 else 1.
Definition slack (i : xitem) : Z := gives i - counted i - delta i.

Lemma x_describe_length nms d i a n : x_ell i = false -> rank_0 i = false -> x_describe nms d i = Ok (a, n) -> zlen n = gives i.
Proof.
  intros HE H0. unfold zlen. destruct i as [i|m|m]; cbn [x_describe].
  - destruct i; try discriminate; cbn [describe_item]; try (destruct (name_at nms d); [|discriminate]); intros H;
      injection H as <- <-; reflexivity.
  - destruct (Nat.eqb (ndim m) 1).
    + destruct (name_at nms d); [|discriminate]. intros H; injection H as <- <-. reflexivity.
    + destruct (join_dim_names _); [|discriminate]. intros H; injection H as <- <-. reflexivity.
  - destruct (name_at nms d); [|discriminate]. intros H; injection H as <- <-. rewrite app_length, repeat_length. cbn.
    cbn [rank_0] in H0. apply Nat.eqb_neq in H0. lia.
Qed.

Lemma x_describe_all_length nms l : forall d a n, existsb x_ell l = false -> existsb rank_0 l = false ->
  x_describe_all nms d l = Ok (a, n) -> zlen n = total gives l.
Proof.
  induction l as [|i l IH]; intros d a n HE H0 H; cbn [x_describe_all] in H.
  - injection H as <- <-. reflexivity.
  - cbn [existsb] in HE, H0. apply orb_false_iff in HE as [HE HE'], H0 as [H0 H0'].
    destruct (x_describe nms d i) as [[a1 n1]|] eqn:E; [|discriminate]. cbn [bind] in H.
    destruct (x_describe_all nms (S d) l) as [[a2 n2]|] eqn:E2; [|discriminate]. cbn [bind] in H. injection H as <- <-.
    rewrite total_cons. rewrite <- (x_describe_length _ _ _ _ _ HE H0 E), <- (IH _ _ _ HE' H0' E2).
    unfold zlen. rewrite app_length. lia.
Qed.

Lemma x_indexed_counted l : Z.of_nat (x_indexed l) = total counted l.
Proof.
  unfold x_indexed. induction l as [|i l IH]; [reflexivity|]. rewrite total_cons. cbn [filter]. unfold counted at 1.
  destruct (x_none i); cbn [negb length]; lia.
Qed.

(** What replacing at most one Ellipsis does to the item counts. *)
Lemma x_replace_facts l nd l' : (length (filter x_ell l) <= 1)%nat -> x_replace l nd = Ok l' ->
  existsb x_ell l' = false /\ existsb rank_0 l' = existsb rank_0 l /\ total delta l' = total delta l /\
  filter x_adv l' = filter x_adv l /\ total slack l' = total slack (filter (fun i => negb (x_ell i)) l) /\
  (existsb x_ell l = true -> Z.of_nat nd <= total counted l') /\ (existsb x_ell l = false -> l' = l).
Proof.
  intros HL H. unfold x_replace in H. rewrite ell_positions_length in H.
  replace (Nat.ltb 1 (length (filter x_ell l))) with false in H by (symmetry; now apply Nat.ltb_ge).
  injection H as <-.
  destruct (existsb x_ell l) eqn:E.
  - assert (exists l1 l2, l = l1 ++ Plain IEll :: l2 /\ existsb x_ell l1 = false /\ existsb x_ell l2 = false) as (l1 & l2 & -> & N1 & N2).
    { clear -HL E. induction l as [|i l IH]; [discriminate|]. cbn [existsb filter] in *. destruct (x_ell i) eqn:Ei.
      - exists [], l. destruct i as [[]|?|?]; try discriminate. split; [reflexivity|]. split; [reflexivity|].
        cbn [length] in HL. destruct (existsb x_ell l) eqn:El; auto. apply existsb_exists in El as (j & Hj & Hjj).
        assert (In j (filter x_ell l)) by (apply filter_In; auto). destruct (filter x_ell l); [destruct H|cbn in HL; lia].
      - destruct (IH HL E) as (l1 & l2 & -> & A & B). exists (i :: l1), l2. split; [reflexivity|]. cbn [existsb]. rewrite Ei. auto. }
    assert (EP : exists r, ell_positions (l1 ++ Plain IEll :: l2) = length l1 :: r).
    { unfold ell_positions. clear -N1. enough (G : forall k, exists r, map fst (filter (fun p => x_ell (snd p))
        (combine (seq k (length (l1 ++ Plain IEll :: l2))) (l1 ++ Plain IEll :: l2))) = (k + length l1)%nat :: r) by apply (G O).
      induction l1 as [|i l1 IH]; intros k.
      - cbn [app length seq combine filter snd x_ell map fst]. rewrite Nat.add_0_r. eauto.
      - cbn [existsb] in N1. apply orb_false_iff in N1 as [N1 N1']. cbn [app length seq combine filter snd]. rewrite N1.
        destruct (IH N1' (S k)) as [r Hr]. exists r. rewrite Hr. f_equal. cbn [length]. lia. }
    destruct EP as [r EP]. unfold replace_first. rewrite EP.
    rewrite firstn_app, Nat.sub_diag, firstn_all, firstn_O, app_nil_r.
    rewrite skipn_app, (skipn_all2 l1) by lia. replace (S (length l1) - length l1)%nat with 1%nat by lia. cbn [skipn app].
    set (z := Z.to_nat _).
    assert (R : forall (f : xitem -> Z), f x_slice = 0 -> total f (repeat x_slice z) = 0).
    { intros f Hf. generalize z. clear -Hf. induction z as [|z IH]; [reflexivity|]. cbn [repeat]. rewrite total_cons. lia. }
    assert (RB : forall f : xitem -> bool, f x_slice = false -> existsb f (repeat x_slice z) = false).
    { intros f Hf. generalize z. clear -Hf. induction z as [|z IH]; [reflexivity|]. cbn [repeat existsb]. now rewrite Hf. }
    assert (RF : forall f : xitem -> bool, f x_slice = false -> filter f (repeat x_slice z) = []).
    { intros f Hf. generalize z. clear -Hf. induction z as [|z IH]; [reflexivity|]. cbn [repeat filter]. now rewrite Hf. }
    assert (RC : total counted (repeat x_slice z) = Z.of_nat z).
    { generalize z. clear. induction z as [|z IH]; [reflexivity|]. cbn [repeat]. rewrite total_cons, IH. cbn [counted x_none x_slice full_slice]. lia. }
    assert (FN : forall q, existsb x_ell q = false -> filter (fun i => negb (x_ell i)) q = q).
    { clear. induction q as [|i q IH]; intros H; [reflexivity|]. cbn [existsb filter] in *. apply orb_false_iff in H as [-> H]. cbn. now rewrite IH. }
    split; [rewrite !existsb_app, N1, N2, RB by reflexivity; reflexivity|].
    split; [rewrite !existsb_app, RB by reflexivity; reflexivity|].
    split; [rewrite !total_app, R, total_cons by reflexivity; cbn [delta]; lia|].
    split; [rewrite !filter_app, RF by reflexivity; reflexivity|].
    split; [rewrite filter_app; cbn [filter x_ell negb]; rewrite !FN, !total_app, R by (auto; reflexivity); lia|].
    split; [|discriminate]. intros _. rewrite !total_app, RC. unfold z. rewrite x_indexed_counted, total_app, total_cons. cbn [counted x_none]. lia.
  - assert (EP : ell_positions l = []).
    { apply length_zero_iff_nil. rewrite ell_positions_length.
      destruct (filter x_ell l) as [|i q] eqn:F; [reflexivity|]. assert (In i (filter x_ell l)) by (rewrite F; left; auto).
      apply filter_In in H as [H1 H2]. assert (existsb x_ell l = true) by (apply existsb_exists; eauto). congruence. }
    unfold replace_first. rewrite EP.
    assert (filter (fun i => negb (x_ell i)) l = l) as ->.
    { clear -E. induction l as [|i l IH]; [reflexivity|]. cbn [existsb filter] in *. apply orb_false_iff in E as [-> E]. cbn. now rewrite IH. }
    repeat (split; [solve [auto]|]). split; [discriminate|reflexivity].
Qed.

Lemma slack_nonneg i : rank_0 i = false -> x_ell i = false -> 0 <= slack i.
Proof.
  intros H0 HE. destruct i as [i|m|m]; [destruct i; try discriminate; cbn; lia| |]; unfold slack; cbn [gives counted x_none delta rank_0] in *;
    apply Nat.eqb_neq in H0; lia.
Qed.

Lemma total_nonneg f l : (forall i, In i l -> 0 <= f i) -> 0 <= total f l.
Proof.
  induction l as [|i l IH]; intros H; [unfold total; cbn; lia|]. rewrite total_cons.
  pose proof (H i (or_introl eq_refl)). assert (0 <= total f l) by (apply IH; intros; apply H; right; auto). lia.
Qed.

Lemma total_slack l : total slack l = total gives l - total counted l - total delta l.
Proof. induction l as [|i l IH]; [reflexivity|]. rewrite !total_cons, IH. unfold slack. lia. Qed.

Lemma existsb_false_In {A} (f : A -> bool) l i : existsb f l = false -> In i l -> f i = false.
Proof.
  intros H Hi. destruct (f i) eqn:E; auto. assert (existsb f l = true) by (apply existsb_exists; eauto). congruence.
Qed.

Lemma total_adv_split f l : total f l = total f (filter basic l) + total f (filter x_adv l).
Proof.
  induction l as [|i l IH]; [reflexivity|]. cbn [filter]. unfold basic at 1. destruct (x_adv i); cbn [negb]; rewrite !total_cons, IH; lia.
Qed.

Lemma extra_last (l : list xitem) j r : rev l = j :: r -> exists l0, l = l0 ++ [j].
Proof. intros H. exists (rev r). rewrite <- (rev_involutive l), H. reflexivity. Qed.

Lemma consumes_list_sum l : Z.of_nat (list_sum (map consumes l)) = total (fun i => Z.of_nat (consumes i)) l.
Proof. induction l as [|i l IH]; [reflexivity|]. rewrite total_cons. cbn [map list_sum fold_right]. unfold list_sum in IH. lia. Qed.

(** The names of a StreamTensor that is returned are as many as its dimensions; that excludes most expressions. *)
Lemma accepted_tuple (x y : @stensor V) l : length (names x) = ndim (tn x) ->
  (length (filter x_ell l) <= 1)%nat -> x_getitem x (XTuple l) = Ok (OStream y) ->
  (length (filter x_adv l) <= 1)%nat /\
  total slack (filter (fun i => negb (x_ell i)) l) <= (if existsb x_ell l then 0 else match rev l with j :: _ => extra_dims j | [] => 0 end).
Proof.
  intros HR HE H. unfold x_getitem in H.
  destruct (x_torch_getitem (tn x) (XTuple l)) as [t'|] eqn:ET; [|discriminate]. cbn [bind x_determine] in H.
  destruct (x_replace l (length (names x))) as [l'|] eqn:ER; [|discriminate]. cbn [bind] in H.
  destruct (x_replace_facts _ _ _ HE ER) as (F1 & F2 & F3 & F4 & F5 & F6 & F7).
  destruct (x_describe_all (names x) 0 l') as [[aff nn]|] eqn:ED; [|discriminate]. cbn [bind] in H.
  destruct (rev l') as [|j r] eqn:Er; [discriminate|]. cbn [bind] in H.
  set (nn' := nn ++ _) in H.
  assert (HN : length nn' = ndim t').
  { assert (G : forall q, (exists v, refine_names (ndim t') q = Ok v) -> length q = ndim t').
    { intros q [v Hv]. unfold refine_names in Hv. destruct (Nat.eqb (length q) (ndim t')) eqn:Eq; [now apply Nat.eqb_eq in Eq|discriminate]. }
    apply G. destruct (names_index _ (names x)) as [bd|]; [|discriminate]. cbn [bind] in H.
    destruct (names_index _ (names x)) as [ld|]; [|discriminate]. cbn [bind] in H.
    destruct (refine_names (ndim t') nn') as [v|]; [eauto|]. exfalso.
    destruct (negb _); [discriminate|]. destruct (mask_indices _ _ _ _ _) as [[bm lm]|]; discriminate. }
  unfold x_torch_getitem in ET. destruct (mask_then_basic l || existsb rank_0 l) eqn:E0; [discriminate|].
  apply orb_false_iff in E0 as [_ E0].
  destruct (Nat.ltb (ndim (tn x)) (x_specified l)) eqn:E1; [discriminate|]. apply Nat.ltb_ge in E1.
  assert (HJ : rank_0 j = false).
  { eapply existsb_false_In; [exact (eq_trans F2 E0)|]. apply in_rev. rewrite Er. left; reflexivity. }
  assert (HX : 0 <= extra_dims j).
  { destruct j as [?|m|?]; cbn [extra_dims rank_0] in *; lia. }
  assert (HG : total gives l' + Z.of_nat (ndim (tn x)) - total counted l' - (if existsb x_ell l then 0 else extra_dims j) <= Z.of_nat (ndim t')).
  { rewrite <- HN. unfold nn'. rewrite app_length, skipn_length.
    pose proof (x_describe_all_length _ _ _ _ _ F1 (eq_trans F2 E0) ED) as HD. unfold zlen in HD. rewrite HR, x_indexed_counted.
    destruct (existsb x_ell l) eqn:EE; [specialize (F6 eq_refl)|]; rewrite ?HR in *; pose proof (x_indexed_counted l'); lia. }
  assert (HP : forall i, In i l' -> 0 <= slack i).
  { intros i Hi. apply slack_nonneg; [|eapply existsb_false_In; eauto]. eapply existsb_false_In; [|exact Hi]. congruence. }
  assert (HEx : (if existsb x_ell l then 0 else match rev l with k :: _ => extra_dims k | [] => 0 end) =
                (if existsb x_ell l then 0 else extra_dims j)).
  { destruct (existsb x_ell l) eqn:EE; [reflexivity|]. rewrite <- (F7 eq_refl), Er. reflexivity. }
  rewrite HEx, <- F5.
  destruct (Nat.ltb 1 (length (filter x_adv l))) eqn:EA.
  - exfalso. apply Nat.ltb_lt in EA.
    destruct (x_basic (tn x) 0 _ l) as [[t1 a]|] eqn:EB; [|discriminate]. cbn [bind] in ET.
    destruct (x_basic_facts _ _ _ _ _ _ E0 EB) as (B1 & B2 & B3).
    assert (HA : Forall (fun p => x_adv (snd p) = true /\ rank_0 (snd p) = false) a).
    { apply Forall_forall. intros p Hp. assert (In (snd p) (filter x_adv l)) by (rewrite <- B2; now apply in_map).
      apply filter_In in H0 as [H0 H1]. split; [exact H1|]. eapply existsb_false_In; eauto. }
    assert (LA : zlen a = zlen (filter x_adv l)) by (unfold zlen; rewrite <- B2, map_length; reflexivity).
    assert (a <> []) by (intros ->; unfold zlen in LA; cbn in LA; lia).
    pose proof (x_together_ndim _ _ _ _ HA B3 H0 ET) as B4. rewrite B2, consumes_list_sum in B4.
    assert (HS : total slack (filter basic l') >= 0).
    { enough (0 <= total slack (filter basic l')) by lia. apply total_nonneg. intros i Hi. apply filter_In in Hi as [Hi _]. auto. }
    rewrite total_slack in HS.
    assert (D1 : total delta (filter basic l') = total delta (filter basic l)).
    { pose proof (total_adv_split delta l) as X. pose proof (total_adv_split delta l') as Y. rewrite F4 in Y. lia. }
    assert (C1 : total counted (filter x_adv l) = zlen (filter x_adv l)).
    { clear. unfold zlen. induction l as [|i l IH]; [reflexivity|]. cbn [filter]. destruct (x_adv i) eqn:E; [|exact IH].
      rewrite total_cons. cbn [length]. unfold counted at 1. destruct i as [[]|?|?]; try discriminate; cbn [x_none]; lia. }
    pose proof (total_adv_split gives l') as G1. pose proof (total_adv_split counted l') as G2. rewrite F4 in G1, G2.
    assert (K : (if existsb x_ell l then 0 else extra_dims j) + 2 <= total (fun i => Z.of_nat (consumes i)) (filter x_adv l)).
    { assert (K0 : forall q, (forall i, In i q -> 1 <= Z.of_nat (consumes i)) -> zlen q <= total (fun i => Z.of_nat (consumes i)) q).
      { clear. induction q as [|i q IH]; intros H; [unfold zlen, total; cbn; lia|]. rewrite total_cons.
        pose proof (H i (or_introl eq_refl)). specialize (IH (fun k Hk => H k (or_intror Hk))). unfold zlen in *. cbn [length]. lia. }
      assert (K1 : forall i, In i (filter x_adv l) -> 1 <= Z.of_nat (consumes i)).
      { intros i Hi. apply filter_In in Hi as [Hi1 Hi2]. destruct (adv_gives i) as [_ X]; [eapply existsb_false_In; eauto|auto|lia]. }
      pose proof (K0 _ K1) as K2. unfold zlen in K2.
      destruct (existsb x_ell l) eqn:EE; [lia|].
      specialize (F7 eq_refl). destruct (extra_last _ _ _ Er) as [l0 El0].
      destruct j as [j|m|m]; cbn [extra_dims] in *; try lia.
      rewrite F7 in El0. rewrite El0 in K1, EA |- *. rewrite filter_app in K1, EA |- *. cbn [filter x_adv] in K1, EA |- *.
      rewrite app_length in EA. cbn [length] in EA. rewrite total_app, total_cons. cbn [consumes]. unfold total at 2. cbn [map zsum fold_right].
      assert (K3 : zlen (filter x_adv l0) <= total (fun i => Z.of_nat (consumes i)) (filter x_adv l0)).
      { apply K0. intros i Hi. apply K1. apply in_or_app. auto. }
      unfold zlen in K3. lia. }
    lia.
  - apply Nat.ltb_ge in EA. split; [exact EA|].
    pose proof (x_apply_ndim _ _ _ _ _ E0 ET) as B. rewrite <- F3 in B. rewrite total_slack. lia.
Qed.

(** The same in the vocabulary of the specification. *)
Lemma accepted_shape (x y : @stensor V) l : length (names x) = length (shp (tn x)) ->
  (length (filter dots l) <= 1)%nat -> x_getitem x (XTuple l) = Ok (OStream y) ->
  (length (filter listlike l) <= 1)%nat /\ existsb zero_dim l = false /\
  (forall l1 i l2, l = l1 ++ i :: l2 -> wide i = true -> l2 = [] /\ existsb dots l1 = false).
Proof.
  intros HR HE H.
  assert (H0 : existsb rank_0 l = false).
  { unfold x_getitem in H. destruct (x_torch_getitem (tn x) (XTuple l)) as [t'|] eqn:ET; [|discriminate].
    unfold x_torch_getitem in ET. destruct (mask_then_basic l || existsb rank_0 l) eqn:E0; [discriminate|].
    now apply orb_false_iff in E0 as [_ E0]. }
  destruct (accepted_tuple x y l HR HE H) as [A B].
  assert (S0 : forall i, In i (filter (fun i => negb (x_ell i)) l) -> 0 <= slack i).
  { intros i Hi. apply filter_In in Hi as [Hi1 Hi2]. apply slack_nonneg; [eapply existsb_false_In; eauto|]. now apply negb_true_iff. }
  assert (EX : (if existsb x_ell l then 0 else match rev l with j :: _ => extra_dims j | [] => 0 end) =
               if existsb x_ell l then 0 else match rev l with j :: _ => (if wide j then slack j else 0) | [] => 0 end).
  { destruct (existsb x_ell l) eqn:EE; [reflexivity|]. destruct (rev l) as [|j r] eqn:Er; [reflexivity|].
    assert (rank_0 j = false). { eapply existsb_false_In; [exact H0|]. apply in_rev. rewrite Er. left; auto. }
    destruct j as [j|m|m]; cbn [wide]; try reflexivity. unfold slack. cbn [gives counted x_none delta extra_dims rank_0] in *.
    apply Nat.eqb_neq in H1. unfold ndim in *. destruct (Nat.ltb 1 (length (shp m))) eqn:E; [lia|]. apply Nat.ltb_ge in E. lia. }
  rewrite EX in B. clear EX. split; [|split].
  - assert (filter listlike l = filter x_adv l) as ->; [|exact A]. apply filter_ext. intros [[]|?|?]; reflexivity.
  - destruct (existsb zero_dim l) eqn:EZ; [|reflexivity]. exfalso. apply existsb_exists in EZ as (i & Hi & Zi).
    apply in_split in Hi as (l1 & l2 & ->).
    rewrite filter_app in B, S0. destruct i as [[]|?|?]; try discriminate. cbn [filter x_ell negb] in B, S0.
    rewrite total_app, total_cons in B. change (slack (Plain (IScalar i))) with 1 in B.
    assert (P1 : 0 <= total slack (filter (fun i => negb (x_ell i)) l1)) by (apply total_nonneg; intros; apply S0; apply in_or_app; auto).
    assert (P2 : 0 <= total slack (filter (fun i => negb (x_ell i)) l2)) by (apply total_nonneg; intros; apply S0; apply in_or_app; right; right; auto).
    destruct (existsb x_ell _) eqn:EE; [lia|].
    destruct (rev (l1 ++ Plain (IScalar i) :: l2)) as [|j r] eqn:Er; [lia|]. destruct (wide j) eqn:W; [|lia].
    assert (EF : forall q, existsb x_ell q = false -> filter (fun i => negb (x_ell i)) q = q).
    { clear. induction q as [|k q IH]; intros H; [reflexivity|]. cbn [existsb filter] in *. apply orb_false_iff in H as [-> H]. cbn. now rewrite IH. }
    rewrite existsb_app in EE. apply orb_false_iff in EE as [EE1 EE2]. cbn [existsb x_ell orb] in EE2.
    rewrite (EF _ EE2) in B, P2. rewrite (EF _ EE1) in B, P1.
    destruct l2 as [|k l2 _] using rev_ind.
    + rewrite rev_app_distr in Er. cbn in Er. injection Er as <- <-. discriminate.
    + change (l1 ++ Plain (IScalar i) :: l2 ++ [k]) with (l1 ++ (Plain (IScalar i) :: l2) ++ [k]) in Er.
      rewrite app_assoc, rev_app_distr in Er. cbn [rev app] in Er. injection Er as <- _.
      rewrite total_app in B. change (total slack [k]) with (slack k + 0) in B.
      assert (0 <= total slack l2).
      { apply total_nonneg. intros q Hq. apply S0. apply in_or_app; right; right. rewrite (EF _ EE2). apply in_or_app; auto. }
      lia.
  - intros l1 i l2 -> W.
    rewrite filter_app in B, S0. destruct i as [?|m|?]; try discriminate. cbn [filter x_ell negb] in B, S0.
    rewrite total_app, total_cons in B.
    assert (P1 : 0 <= total slack (filter (fun i => negb (x_ell i)) l1)) by (apply total_nonneg; intros; apply S0; apply in_or_app; auto).
    assert (P2 : 0 <= total slack (filter (fun i => negb (x_ell i)) l2)) by (apply total_nonneg; intros; apply S0; apply in_or_app; right; right; auto).
    assert (PM : 0 < slack (XMask m)).
    { cbn [wide] in W. apply Nat.ltb_lt in W. unfold slack. cbn [gives counted x_none delta]. unfold ndim. lia. }
    destruct (existsb x_ell _) eqn:EE; [lia|].
    rewrite existsb_app in EE. apply orb_false_iff in EE as [EE1 EE2]. cbn [existsb x_ell orb] in EE2.
    split; [|exact EE1].
    assert (EF : forall q, existsb x_ell q = false -> filter (fun i => negb (x_ell i)) q = q).
    { clear. induction q as [|k q IH]; intros H; [reflexivity|]. cbn [existsb filter] in *. apply orb_false_iff in H as [-> H]. cbn. now rewrite IH. }
    rewrite (EF _ EE2) in B, P2. rewrite (EF _ EE1) in B, P1.
    destruct l2 as [|k l2 _] using rev_ind; [reflexivity|]. exfalso.
    change (l1 ++ XMask m :: l2 ++ [k]) with (l1 ++ (XMask m :: l2) ++ [k]) in B. rewrite app_assoc, rev_app_distr in B. cbn [rev app] in B.
    destruct (wide k) eqn:Wk; [|lia].
    rewrite total_app in B.
    assert (0 <= total slack l2).
    { apply total_nonneg. intros q Hq. apply S0. apply in_or_app; right; right. rewrite (EF _ EE2). apply in_or_app; auto. }
    change (total slack [k]) with (slack k + 0) in B. lia.
Qed.

End Rank.

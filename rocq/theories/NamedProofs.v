(** Proofs about indexing of named StreamTensors (Named.v). *)

From Coq Require Import String List ZArith Bool Lia.
From Coq Require Import ZifyBool.
From Verif Require Import Py Meta MetaSpec MetaProofs MetaLenProofs MetaSplitProofs Named NamedSpec.
Import ListNotations.
Open Scope Z_scope.

(* ---------- lists ---------- *)

Lemma remove_nth_app {A} (pre : list A) a post : remove_nth (length pre) (pre ++ a :: post) = pre ++ post.
Proof.
  unfold remove_nth. rewrite firstn_app, Nat.sub_diag, firstn_all, firstn_O, app_nil_r.
  rewrite skipn_app. replace (skipn (S (length pre)) pre) with (@nil A) by (symmetry; apply skipn_all2; lia).
  replace (S (length pre) - length pre)%nat with 1%nat by lia. reflexivity.
Qed.

Lemma insert_nth_app {A} (pre : list A) a post : insert_nth (length pre) a (pre ++ post) = pre ++ a :: post.
Proof.
  unfold insert_nth. rewrite firstn_app, Nat.sub_diag, firstn_all, firstn_O, app_nil_r.
  rewrite skipn_app, skipn_all, Nat.sub_diag. reflexivity.
Qed.

Lemma list_set_app {A} (pre : list A) a post x : list_set (pre ++ a :: post) (length pre) x = pre ++ x :: post.
Proof. induction pre; simpl; congruence. Qed.

Lemma nth_app_here {A} (pre : list A) a post d : nth (length pre) (pre ++ a :: post) d = a.
Proof. rewrite app_nth2 by lia. now rewrite Nat.sub_diag. Qed.

Lemma nth_positions n i : 0 <= i < n -> nth (Z.to_nat i) (positions n) 0 = i.
Proof.
  intros H. unfold positions. change 0 with (Z.of_nat 0). rewrite map_nth, seq_nth by lia. lia.
Qed.

Lemma nth_error_positions n i : 0 <= i < n -> nth_error (positions n) (Z.to_nat i) = Some i.
Proof.
  intros H. rewrite (nth_error_nth' _ 0) by (rewrite positions_length; lia). now rewrite nth_positions.
Qed.

Lemma zlen_positions n : 0 <= n -> zlen (positions n) = n.
Proof. intros. unfold zlen. rewrite positions_length. lia. Qed.

Lemma dim_positions_eq n : dim_positions n = positions n.
Proof. reflexivity. Qed.

(** Selecting among the positions themselves. *)
Lemma at_positions_self n ps : (forall p, In p ps -> 0 <= p < n) -> at_positions (positions n) ps = ps.
Proof.
  intros H. unfold at_positions. induction ps as [|p ps IH]; simpl; auto.
  rewrite nth_error_positions by (apply H; left; auto). simpl. f_equal. apply IH. intros; apply H; right; auto.
Qed.

(** The primitive that torch applies to dimension positions, in terms of [picks]. *)
Lemma getitem_positions n i : - n <= i < n ->
  py_getitem (dim_positions n) i = Ok (if i <? 0 then i + n else i).
Proof.
  intros H. rewrite dim_positions_eq. unfold py_getitem. rewrite zlen_positions by lia.
  destruct (i <? 0) eqn:E.
  - replace (i + n <? 0) with false by lia. rewrite nth_error_positions by lia. reflexivity.
  - rewrite E. rewrite nth_error_positions by lia. reflexivity.
Qed.

Lemma getitem_positions_ok n i p : 0 <= n -> py_getitem (dim_positions n) i = Ok p -> - n <= i < n.
Proof.
  intros Hn. rewrite dim_positions_eq. unfold py_getitem. rewrite zlen_positions by lia.
  destruct (i <? 0) eqn:E.
  - destruct (i + n <? 0) eqn:E2; [discriminate|]. intros _. lia.
  - rewrite E. destruct (nth_error (positions n) (Z.to_nat i)) eqn:E2; [|discriminate].
    assert (nth_error (positions n) (Z.to_nat i) <> None) by congruence.
    apply nth_error_Some in H. rewrite positions_length in H. intros _. lia.
Qed.

Lemma slice_positions_self n a b : 0 <= n ->
  tensor_slice (dim_positions n) (mkSlice a b None) = Ok (slice_positions n a b 1).
Proof.
  intros Hn. rewrite dim_positions_eq.
  assert (E : tensor_slice (positions n) (mkSlice a b None) = tensor_slice (positions n) (mkSlice a b (Some 1))).
  { unfold tensor_slice; cbn [sl_step]. replace (1 <=? 0) with false by reflexivity.
    unfold list_slice. rewrite slice_indices_none. reflexivity. }
  rewrite E, tensor_slice_pos by lia. rewrite zlen_positions by lia.
  f_equal. apply at_positions_self. intros p Hp. eapply slice_positions_bounds; eauto.
Qed.

Lemma step_positions_self n a b k : 0 <= n -> 0 < k ->
  tensor_slice (dim_positions n) (mkSlice a b (Some k)) = Ok (slice_positions n a b k).
Proof.
  intros Hn Hk. rewrite dim_positions_eq, tensor_slice_pos by lia. rewrite zlen_positions by lia.
  f_equal. apply at_positions_self. intros p Hp. eapply slice_positions_bounds; eauto.
Qed.

Lemma full_positions n : 0 <= n -> slice_positions n None None 1 = positions n.
Proof.
  intros Hn. unfold slice_positions. apply filter_all. intros p Hp. apply positions_spec in Hp.
  unfold in_slice, slice_lo, slice_hi, slice_end. rewrite Z.mod_1_r. lia.
Qed.

Lemma gather_positions n l : 0 <= n -> Forall (fun i => - n <= i < n) l ->
  py_gather (dim_positions n) l = Ok (map (fun i => if i <? 0 then i + n else i) l).
Proof.
  intros Hn. unfold py_gather. induction l as [|i l IH]; intros H; [reflexivity|].
  inversion H as [|? ? Hi Hl]; subst. rewrite mapM_cons, getitem_positions, IH by auto. reflexivity.
Qed.

Lemma gather_positions_ok n l ps : 0 <= n -> py_gather (dim_positions n) l = Ok ps -> Forall (fun i => - n <= i < n) l.
Proof.
  intros Hn. unfold py_gather. revert ps; induction l as [|i l IH]; intros ps; [constructor|].
  rewrite mapM_cons. destruct (py_getitem (dim_positions n) i) eqn:E; simpl; [|discriminate].
  destruct (mapM _ l) eqn:E2; simpl; [|discriminate]. intros _. constructor.
  - eapply getitem_positions_ok; eauto.
  - eapply IH; eauto.
Qed.

Lemma masked_positions_from b : forall i,
  masked (map Z.of_nat (seq i (length b))) b
  = map Z.of_nat (filter (fun j => nth (j - i) b false) (seq i (length b))).
Proof.
  induction b as [|x b IH]; intros i; [reflexivity|].
  cbn [length seq map]. unfold masked in *. cbn [combine filter snd].
  specialize (IH (S i)).
  assert (E : filter (fun j => nth (j - S i) b false) (seq (S i) (length b))
              = filter (fun j => nth (j - i) (x :: b) false) (seq (S i) (length b))).
  { apply filter_ext_in. intros j Hj. apply in_seq in Hj.
    replace (j - i)%nat with (S (j - S i)) by lia. reflexivity. }
  rewrite E in IH. rewrite Nat.sub_diag. cbn [nth].
  destruct x; cbn [map fst]; rewrite IH; reflexivity.
Qed.

Lemma filter_map_comm {A B} (f : A -> B) (g : B -> bool) l :
  filter g (map f l) = map f (filter (fun a => g (f a)) l).
Proof. induction l as [|a l IH]; simpl; auto. rewrite IH. destruct (g (f a)); reflexivity. Qed.

Lemma masked_positions b : masked (positions (zlen b)) b = mask_positions b.
Proof.
  unfold mask_positions, positions. rewrite filter_map_comm.
  unfold zlen. rewrite Nat2Z.id. rewrite masked_positions_from. f_equal.
  apply filter_ext. intros j. now rewrite Nat2Z.id, Nat.sub_0_r.
Qed.

Lemma mask_positions_self n b : zlen b = n -> tensor_mask (dim_positions n) b = Ok (mask_positions b).
Proof.
  intros <-. rewrite dim_positions_eq, tensor_mask_eq.
  - now rewrite masked_positions.
  - rewrite positions_length. unfold zlen. lia.
Qed.

Lemma mask_positions_ok n b ps : 0 <= n -> tensor_mask (dim_positions n) b = Ok ps -> zlen b = n.
Proof.
  intros Hn. unfold tensor_mask. rewrite dim_positions_eq, positions_length.
  destruct (Nat.eqb_spec (Z.to_nat n) (length b)); [|discriminate]. unfold zlen. lia.
Qed.

Lemma slice_ok_step {A} (l : list A) a b k r : tensor_slice l (mkSlice a b (Some k)) = Ok r -> 0 < k.
Proof. unfold tensor_slice; cbn [sl_step]. destruct (k <=? 0) eqn:E; [discriminate|]. lia. Qed.

(* ---------- torch's sequential indexing against simultaneous selection ---------- *)

Definition plain_item (i : item) : Prop := match i with INone | IEll | IScalar _ => False | _ => True end.

Lemma picks_plain n i s : picks n i s -> plain_item i.
Proof. destruct 1; exact I. Qed.

Lemma picks_fun n i s1 s2 : picks n i s1 -> picks n i s2 -> s1 = s2.
Proof.
  intros H1 H2. destruct H1; inversion H2; subst; auto; try congruence.
  all: match goal with H : _ \/ _ |- _ => destruct H; congruence end.
Qed.

Lemma picks_full_iff n i s : picks n i s -> (s = Full <-> is_full_slice i = true).
Proof.
  destruct 1; cbn; split; try congruence; try discriminate.
  - destruct a; [discriminate|]. destruct b; [discriminate|]. destruct H; congruence.
  - destruct a; [discriminate|]. destruct b; discriminate.
Qed.

Section Torch.
Context {V : Type}.
Implicit Types t : @tensor V.

Lemma app_snoc_assoc {A} (l : list A) a r : l ++ a :: r = (l ++ [a]) ++ r.
Proof. now rewrite <- app_assoc. Qed.

(** Effect of a take on the layout pre ++ n :: post. *)
Lemma t_take_shp t pre n post ps : shp t = pre ++ n :: post ->
  shp (t_take t (length pre) ps) = pre ++ zlen ps :: post.
Proof. intros E. unfold t_take; cbn [shp]. rewrite E. apply list_set_app. Qed.

Lemma t_take_at t (pre : list Z) ps ia i ic : length ia = length pre ->
  at_ (t_take t (length pre) ps) (ia ++ i :: ic) = at_ t (ia ++ nth (Z.to_nat i) ps 0 :: ic).
Proof.
  intros E. unfold t_take; cbn [at_]. rewrite <- E, nth_app_here, list_set_app. reflexivity.
Qed.

Lemma t_select_shp t pre n post p : shp t = pre ++ n :: post -> shp (t_select t (length pre) p) = pre ++ post.
Proof. intros E. unfold t_select; cbn [shp]. rewrite E. apply remove_nth_app. Qed.

Lemma t_select_at t (pre : list Z) p ia ic : length ia = length pre ->
  at_ (t_select t (length pre) p) (ia ++ ic) = at_ t (ia ++ p :: ic).
Proof. intros E. unfold t_select; cbn [at_]. rewrite <- E. now rewrite insert_nth_app. Qed.

(** What one item does to the tensor, as torch_apply does it. *)
Definition item_step t (d : nat) (i : item) : res (tensor * nat) :=
  if Nat.leb (ndim t) d then Err IndexError
  else match i with
       | IInt k | IScalar k => do p <- py_getitem (dim_positions (size t d)) k; Ok (t_select t d p, d)
       | ISlice s => do ps <- tensor_slice (dim_positions (size t d)) s; Ok (t_take t d ps, S d)
       | IList ks | ITen ks => do ps <- py_gather (dim_positions (size t d)) ks; Ok (t_take t d ps, S d)
       | IMask b => do ps <- tensor_mask (dim_positions (size t d)) b; Ok (t_take t d ps, S d)
       | _ => Err Undefined
       end.

Lemma torch_apply_step t d gap i l : plain_item i ->
  torch_apply t d gap (i :: l) = do '(t1, d1) <- item_step t d i; torch_apply t1 d1 gap l.
Proof.
  intros H. unfold item_step.
  destruct i; try contradiction; cbn [torch_apply]; destruct (Nat.leb (ndim t) d); auto.
  - destruct (py_getitem _ _); reflexivity.
  - destruct (tensor_slice _ _); reflexivity.
  - destruct (py_gather _ _); reflexivity.
  - destruct (py_gather _ _); reflexivity.
  - destruct (tensor_mask _ _); reflexivity.
Qed.

Lemma size_here t pre n post : shp t = pre ++ n :: post -> size t (length pre) = n /\ Nat.leb (ndim t) (length pre) = false.
Proof.
  intros E. unfold size, ndim. rewrite E. rewrite nth_app_here. split; auto.
  rewrite app_length. simpl. apply Nat.leb_gt. lia.
Qed.

Lemma item_step_picks t pre n post i s : shp t = pre ++ n :: post -> 0 <= n -> picks n i s ->
  item_step t (length pre) i =
    Ok (match s with
        | Full => (t_take t (length pre) (positions n), S (length pre))
        | Drop p => (t_select t (length pre) p, length pre)
        | Keep ps => (t_take t (length pre) ps, S (length pre))
        end).
Proof.
  intros E Hn H. destruct (size_here _ _ _ _ E) as [Es El]. unfold item_step. rewrite El, Es.
  destruct H.
  - rewrite slice_positions_self by auto. cbn [bind]. now rewrite full_positions.
  - rewrite getitem_positions by auto. reflexivity.
  - rewrite slice_positions_self by auto. reflexivity.
  - rewrite step_positions_self by auto. reflexivity.
  - rewrite gather_positions by auto. reflexivity.
  - rewrite gather_positions by auto. reflexivity.
  - rewrite mask_positions_self by auto. reflexivity.
Qed.

Lemma item_step_ok t pre n post i r : shp t = pre ++ n :: post -> 0 <= n -> plain_item i ->
  item_step t (length pre) i = Ok r -> exists s, picks n i s.
Proof.
  intros E Hn Hp. destruct (size_here _ _ _ _ E) as [Es El]. unfold item_step. rewrite El, Es.
  destruct i; try contradiction.
  - destruct (py_getitem _ _) eqn:E1; [|discriminate]. intros _. eexists. constructor.
    eapply getitem_positions_ok; eauto.
  - destruct (tensor_slice _ _) eqn:E1; [|discriminate]. intros _. destruct s as [sa sb [k|]].
    + eexists. apply P_step. eapply slice_ok_step; eauto.
    + destruct sa as [sa|]; [eexists; apply P_slice; left; discriminate|].
      destruct sb as [sb|]; [eexists; apply P_slice; right; discriminate|].
      eexists; apply P_all.
  - destruct (py_gather _ _) eqn:E1; [|discriminate]. intros _. eexists. constructor. eapply gather_positions_ok; eauto.
  - destruct (py_gather _ _) eqn:E1; [|discriminate]. intros _. eexists. constructor. eapply gather_positions_ok; eauto.
  - destruct (tensor_mask _ _) eqn:E1; [|discriminate]. intros _. eexists. constructor. eapply mask_positions_ok; eauto.
Qed.

Lemma in_range_length s ix : in_range s ix -> length ix = length s.
Proof. induction 1; simpl; congruence. Qed.

(** Items for the dimensions [sizes] in the middle of a tensor. *)
Lemma torch_apply_mid items : forall t pre sizes post ss gap k,
  shp t = pre ++ sizes ++ post -> Forall (fun n => 0 <= n) sizes ->
  picks_all sizes items ss ->
  exists t', torch_apply t (length pre) gap (items ++ k) = torch_apply t' (length pre + length (kept_sizes ss sizes)) gap k
    /\ shp t' = pre ++ kept_sizes ss sizes ++ post
    /\ forall ia ib ic, length ia = length pre -> in_range (kept_sizes ss sizes) ib ->
       at_ t' (ia ++ ib ++ ic) = at_ t (ia ++ source ss ib ++ ic).
Proof.
  induction items as [|i items IH]; intros t pre sizes post ss gap k E Hn HP.
  - inversion HP; subst. exists t. cbn [kept_sizes length app].
    rewrite Nat.add_0_r. split; [reflexivity|]. split; [exact E|].
    intros ia ib ic _ H. inversion H; subst. reflexivity.
  - inversion HP as [|n ? s sizes' ? ss' Hs HP']; subst. rename sizes' into sizes.
    inversion Hn; subst.
    cbn [app] in *. rewrite torch_apply_step by (eapply picks_plain; eauto).
    rewrite (item_step_picks _ _ _ _ _ _ E H1 Hs). cbn [bind].
    destruct s as [|p|ps].
    + destruct (IH (t_take t (length pre) (positions n)) (pre ++ [n]) sizes post ss' gap k) as (t' & A & B & C); auto.
      { rewrite (t_take_shp _ _ _ _ _ E), zlen_positions by auto. apply app_snoc_assoc. }
      exists t'. cbn [kept_sizes]. rewrite app_length in A. cbn [length] in *.
      split; [rewrite Nat.add_1_r in A; rewrite A; f_equal; lia|].
      split; [rewrite B; now rewrite <- app_assoc|].
      intros ia ib ic Hia Hib. inversion Hib as [|? j ? ib' Hj Hib']; subst. cbn [source app].
      rewrite app_snoc_assoc. rewrite C; [|rewrite !app_length; simpl; lia|auto].
      rewrite <- app_snoc_assoc. rewrite t_take_at by auto. rewrite nth_positions by auto. reflexivity.
    + destruct (IH (t_select t (length pre) p) pre sizes post ss' gap k) as (t' & A & B & C); auto.
      { apply (t_select_shp _ _ _ _ _ E). }
      exists t'. cbn [kept_sizes]. split; [exact A|]. split; [exact B|].
      intros ia ib ic Hia Hib. cbn [source app]. rewrite C by auto. now rewrite t_select_at.
    + destruct (IH (t_take t (length pre) ps) (pre ++ [zlen ps]) sizes post ss' gap k) as (t' & A & B & C); auto.
      { rewrite (t_take_shp _ _ _ _ _ E). apply app_snoc_assoc. }
      exists t'. cbn [kept_sizes]. rewrite app_length in A. cbn [length] in *.
      split; [rewrite Nat.add_1_r in A; rewrite A; f_equal; lia|].
      split; [rewrite B; now rewrite <- app_assoc|].
      intros ia ib ic Hia Hib. inversion Hib as [|? j ? ib' Hj Hib']; subst. cbn [source app].
      rewrite app_snoc_assoc. rewrite C; [|rewrite !app_length; simpl; lia|auto].
      rewrite <- app_snoc_assoc. now rewrite t_take_at by auto.
Qed.

Lemma torch_apply_mid_ok items : forall t pre sizes post gap k r,
  shp t = pre ++ sizes ++ post -> Forall (fun n => 0 <= n) sizes -> Forall plain_item items ->
  length items = length sizes -> torch_apply t (length pre) gap (items ++ k) = Ok r ->
  exists ss, picks_all sizes items ss.
Proof.
  induction items as [|i items IH]; intros t pre sizes post gap k r E Hn Hp HL Hr.
  - destruct sizes; [|discriminate]. exists []. constructor.
  - destruct sizes as [|n sizes]; [discriminate|]. cbn [app] in *.
    inversion Hn; subst. inversion Hp; subst. simpl in HL. injection HL as HL.
    rewrite torch_apply_step in Hr by auto.
    destruct (item_step t (length pre) i) as [[t1 d1]|] eqn:Ei; [|discriminate]. cbn [bind] in Hr.
    destruct (item_step_ok _ _ _ _ _ _ E H1 H3 Ei) as [s Hs].
    rewrite (item_step_picks _ _ _ _ _ _ E H1 Hs) in Ei.
    assert (G : exists pre1, shp t1 = pre1 ++ sizes ++ post /\ d1 = length pre1).
    { destruct s as [|p|ps]; injection Ei as <- <-.
      - exists (pre ++ [n]). split; [|rewrite app_length; simpl; lia].
        rewrite (t_take_shp _ _ _ _ _ E), zlen_positions by auto. apply app_snoc_assoc.
      - exists pre. split; auto. apply (t_select_shp _ _ _ _ _ E).
      - exists (pre ++ [zlen ps]). split; [|rewrite app_length; simpl; lia].
        rewrite (t_take_shp _ _ _ _ _ E). apply app_snoc_assoc. }
    destruct G as (pre1 & E1 & ->).
    destruct (IH _ _ _ _ _ _ _ E1 H2 H4 HL Hr) as [ss Hss].
    exists (s :: ss). constructor; auto.
Qed.

End Torch.

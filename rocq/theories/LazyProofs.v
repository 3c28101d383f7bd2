(** Proofs about Lazy.v: what an operation can change. *)

From Coq Require Import String List ZArith Bool Lia.
From Verif Require Import Py Lazy LazySpec.
Import ListNotations.
Open Scope nat_scope.

(* ------------------------------------------------------------------ lists *)

Lemma length_list_set {A} (l : list A) n x : length (list_set l n x) = length l.
Proof. revert n; induction l as [|a l IH]; destruct n; cbn; auto. Qed.

Lemma nth_error_list_set_eq {A} (l : list A) n x : n < length l -> nth_error (list_set l n x) n = Some x.
Proof. revert n; induction l as [|a l IH]; destruct n; cbn; intros; try lia; auto. apply IH; lia. Qed.

Lemma nth_error_list_set_neq {A} (l : list A) n m x : n <> m -> nth_error (list_set l n x) m = nth_error l m.
Proof. revert n m; induction l as [|a l IH]; destruct n, m; cbn; intros; try lia; auto. Qed.

Lemma nth_list_set_eq {A} (l : list A) n x d : n < length l -> nth n (list_set l n x) d = x.
Proof. revert n; induction l as [|a l IH]; destruct n; cbn; intros; try lia; auto. apply IH; lia. Qed.

Lemma nth_list_set_neq {A} (l : list A) n m x d : n <> m -> nth m (list_set l n x) d = nth m l d.
Proof. revert n m; induction l as [|a l IH]; destruct n, m; cbn; intros; try lia; auto. Qed.

Lemma nth_error_some_lt {A} (l : list A) n x : nth_error l n = Some x -> n < length l.
Proof. intro H. apply nth_error_Some. congruence. Qed.

Lemma nth_app_old {A} (l : list A) x n d : n < length l -> nth n (l ++ [x]) d = nth n l d.
Proof. intro H. apply app_nth1; auto. Qed.

(* ------------------------------------------------------------------ tensors *)

Lemma tread_cell h h' t : nth (t_base t) h' [] = nth (t_base t) h [] -> tread h' t = tread h t.
Proof. unfold tread. intros ->. reflexivity. Qed.

Lemma twrite_other h t vs x : x <> t_base t -> nth x (twrite h t vs) [] = nth x h [].
Proof. intro H. unfold twrite. apply nth_list_set_neq. auto. Qed.

Lemma twrite_length h t vs : length (twrite h t vs) = length h.
Proof. apply length_list_set. Qed.

Lemma tread_alloc h vs n : tread (h ++ [vs]) (mkT (length h) (seq 0 (length vs)) n) = vs.
Proof.
  unfold tread. cbn [t_base t_offs]. rewrite nth_middle.
  clear. induction vs as [|v vs IH]; [reflexivity|].
  cbn [length seq map]. f_equal. rewrite <- seq_shift, map_map. exact IH.
Qed.

Definition conv_ok (c : bool) (h : heap) (t t' : tref) (h' : heap) : Prop :=
  length h <= length h' /\
  (forall x, x < length h -> nth x h' [] = nth x h []) /\
  (t_base t' = t_base t /\ (c = false) \/ length h <= t_base t' < length h') /\
  (t_base t < length h -> t_base t' < length h' /\ tread h' t' = tread h t) /\
  length (t_offs t') = length (t_offs t).

Lemma convert_ok c h t t' h' : convert c h t = (t', h') -> conv_ok c h t t' h'.
Proof.
  unfold convert, conv_ok. destruct (t_native t && negb c) eqn:E; intro H.
  - inversion H; subst. apply andb_true_iff in E as [_ E]. destruct c; [discriminate|].
    repeat split; auto; lia.
  - unfold talloc in H. inversion H; subst. rewrite app_length. cbn [length t_base t_offs].
    split; [lia|]. split; [intros; apply nth_app_old; auto|].
    split; [right; lia|]. split; [intros _; split; [lia|apply tread_alloc]|].
    rewrite seq_length. unfold tread. rewrite map_length. reflexivity.
Qed.

(** The state in which the arguments of a constructor are consistent. *)
Definition cons_args (a : cargs) : Prop :=
  length (a_ids a) = length (t_offs (a_lens a)) /\ length (t_offs (a_sos a)) = length (t_offs (a_lens a)) /\
  length (t_offs (a_eos a)) = length (t_offs (a_lens a)).

Definition fresh_obj (i : list string) (s e l : tref) : obj :=
  mkObj (Some i) (Some s) (Some e) (Some l) None (Some true) None (Some true).

Lemma init_obj_cases h a :
  (~ cons_args a /\ init_obj h a = Err ValueError) \/
  (cons_args a /\ exists s e l h1 h2 h3,
     init_obj h a = Ok (fresh_obj (a_ids a) s e l, h3) /\
     conv_ok (a_copy a) h (a_sos a) s h1 /\ conv_ok (a_copy a) h1 (a_eos a) e h2 /\
     conv_ok (a_copy a) h2 (a_lens a) l h3).
Proof.
  unfold init_obj, cons_args.
  destruct (Nat.eqb_spec (length (a_ids a)) (length (t_offs (a_lens a)))) as [E1|E1]; cbn [andb];
    [|left; split; [lia|reflexivity]].
  destruct (Nat.eqb_spec (length (t_offs (a_lens a))) (length (t_offs (a_sos a)))) as [E2|E2]; cbn [andb];
    [|left; split; [lia|reflexivity]].
  destruct (Nat.eqb_spec (length (t_offs (a_sos a))) (length (t_offs (a_eos a)))) as [E3|E3];
    [|left; split; [lia|reflexivity]].
  right. split; [lia|].
  destruct (convert (a_copy a) h (a_sos a)) as [s h1] eqn:C1.
  destruct (convert (a_copy a) h1 (a_eos a)) as [e h2] eqn:C2.
  destruct (convert (a_copy a) h2 (a_lens a)) as [l h3] eqn:C3.
  exists s, e, l, h1, h2, h3. split; [reflexivity|].
  split; [|split]; apply convert_ok; assumption.
Qed.

(** Summary of a successful construction. *)
Definition made_from (h : heap) (a : cargs) (o : obj) (h' : heap) : Prop :=
  exists s e l, o = fresh_obj (a_ids a) s e l /\
    length h <= length h' /\
    (forall x, x < length h -> nth x h' [] = nth x h []) /\
    (forall x, In x (reaches (Made o)) -> (a_copy a = false /\ In x (reaches (Pending a))) \/ length h <= x < length h') /\
    ((forall x, In x (reaches (Pending a)) -> x < length h) ->
       (forall x, In x (reaches (Made o)) -> x < length h') /\
       tread h' s = tread h (a_sos a) /\ tread h' e = tread h (a_eos a) /\ tread h' l = tread h (a_lens a)) /\
    length (t_offs s) = length (t_offs (a_sos a)) /\ length (t_offs e) = length (t_offs (a_eos a)) /\
    length (t_offs l) = length (t_offs (a_lens a)) /\
    ((a_copy a = true \/ (t_base (a_lens a) <> t_base (a_sos a) /\ t_base (a_lens a) <> t_base (a_eos a))) ->
     (forall x, In x (reaches (Pending a)) -> x < length h) ->
       t_base l <> t_base s /\ t_base l <> t_base e).

Lemma init_obj_made h a o h' : init_obj h a = Ok (o, h') -> cons_args a /\ made_from h a o h'.
Proof.
  intro H. destruct (init_obj_cases h a) as [[_ E]|[C (s & e & l & h1 & h2 & h3 & E & C1 & C2 & C3)]];
    [congruence|].
  split; [exact C|].
  rewrite E in H. inversion H; subst. exists s, e, l.
  destruct C1 as (G1 & N1 & B1 & V1 & L1), C2 as (G2 & N2 & B2 & V2 & L2), C3 as (G3 & N3 & B3 & V3 & L3).
  split; [reflexivity|]. split; [lia|].
  split; [intros; rewrite N3, N2, N1 by lia; reflexivity|].
  cbn [reaches fresh_obj o_sos o_eos o_lens otref app In].
  split.
  { intros x [<-|[<-|[<-|[]]]].
    - destruct B1 as [[-> B1]|B1]; [left; auto|right; lia].
    - destruct B2 as [[-> B2]|B2]; [left; auto|right; lia].
    - destruct B3 as [[-> B3]|B3]; [left; auto|right; lia]. }
  split.
  { intro Hb.
    assert (b1 : t_base (a_sos a) < length h) by auto.
    assert (b2 : t_base (a_eos a) < length h) by auto.
    assert (b3 : t_base (a_lens a) < length h) by auto.
    destruct V1 as [V1 V1'], V2 as [V2 V2'], V3 as [V3 V3']; try lia.
    split; [intros x [<-|[<-|[<-|[]]]]; lia|].
    split; [rewrite <- V1'; apply tread_cell; rewrite N3, N2 by lia; reflexivity|].
    split; [rewrite (tread_cell h2 h' e) by (apply N3; lia); rewrite V2'; apply tread_cell, N1; lia|].
    rewrite V3'. apply tread_cell. rewrite N2, N1 by lia. reflexivity. }
  split; [auto|]. split; [auto|]. split; [auto|].
  intros Hc Hb.
  assert (b1 : t_base (a_sos a) < length h) by auto.
  assert (b2 : t_base (a_eos a) < length h) by auto.
  assert (b3 : t_base (a_lens a) < length h) by auto.
  destruct V1 as [V1 _], V2 as [V2 _], V3 as [V3 _]; try lia.
  destruct Hc as [Hc|Hc].
  - destruct B1 as [[_ B1]|B1]; [congruence|]. destruct B2 as [[_ B2]|B2]; [congruence|].
    destruct B3 as [[_ B3]|B3]; [congruence|]. lia.
  - destruct B1 as [[B1 _]|B1], B2 as [[B2 _]|B2], B3 as [[B3 _]|B3]; lia.
Qed.

(* ------------------------------------------------------------------ effects *)

(** Storages an object may write to: a pending deep copy has no tensors of its own yet. *)
Definition writes (p : proxy) : list nat :=
  match p with
  | Pending a => if a_copy a then [] else reaches p
  | Made _ => reaches p
  end.

Lemma writes_reaches p x : In x (writes p) -> In x (reaches p).
Proof. destruct p as [a|o]; cbn [writes]; [destruct (a_copy a)|]; auto. intros []. Qed.

Definition side_r (sides : list bool) (s : state) (t : bool) (x : nat) : Prop :=
  exists p pr, nth_error sides p = Some t /\ nth_error (st_prox s) p = Some pr /\ In x (reaches pr).
Definition side_w (sides : list bool) (s : state) (t : bool) (x : nat) : Prop :=
  exists p pr, nth_error sides p = Some t /\ nth_error (st_prox s) p = Some pr /\ In x (writes pr).

Lemma side_w_r sides s t x : side_w sides s t x -> side_r sides s t x.
Proof. intros (p & pr & H1 & H2 & H3). exists p, pr. auto using writes_reaches. Qed.

Record Eff (sides sides' : list bool) (t : bool) (s s' : state) : Prop := mkEff {
  e_len : length (st_prox s') = length sides';
  e_other : forall q, nth_error sides q = Some (negb t) -> nth_error (st_prox s') q = nth_error (st_prox s) q;
  e_r : forall x, side_r sides' s' t x ->
          length (st_heap s) <= x < length (st_heap s') \/ side_r sides s t x;
  e_w : forall x, side_w sides' s' t x ->
          length (st_heap s) <= x < length (st_heap s') \/ side_w sides s t x;
  e_heap : forall x, x < length (st_heap s) -> ~ side_w sides s t x ->
          nth x (st_heap s') [] = nth x (st_heap s) [];
  e_grow : length (st_heap s) <= length (st_heap s')
}.

Lemma Eff_refl sides t s : length (st_prox s) = length sides -> Eff sides sides t s s.
Proof. intro. constructor; auto. Qed.

(** Allocation. *)
Lemma Eff_alloc sides t s0 s v :
  Eff sides sides t s0 s -> Eff sides sides t s0 (mkSt (st_heap s ++ [v]) (st_prox s)).
Proof.
  intros [H1 H2 H3 H4 H5 H6]. constructor; cbn [st_heap st_prox]; auto.
  - intros x Hx. rewrite app_length. cbn [length]. destruct (H3 x Hx); [left; lia|auto].
  - intros x Hx. rewrite app_length. cbn [length]. destruct (H4 x Hx); [left; lia|auto].
  - intros x Hx Hn. rewrite nth_app_old by lia. auto.
  - rewrite app_length. lia.
Qed.

(** In-place write to a tensor of the group. *)
Lemma Eff_write sides t s0 s r v :
  Eff sides sides t s0 s -> side_w sides s t (t_base r) ->
  Eff sides sides t s0 (mkSt (twrite (st_heap s) r v) (st_prox s)).
Proof.
  intros [H1 H2 H3 H4 H5 H6] Hr. constructor; cbn [st_heap st_prox]; rewrite ?twrite_length; auto.
  intros x Hx Hn. rewrite twrite_other; auto. intros ->.
  destruct (H4 _ Hr); [lia|auto].
Qed.

(** New object behind a proxy of the group. *)
Lemma Eff_put sides t s0 s h p o :
  Eff sides sides t s0 s -> nth_error sides p = Some t ->
  length (st_heap s) <= length h -> (forall x, x < length (st_heap s) -> nth x h [] = nth x (st_heap s) []) ->
  (forall x, In x (reaches (Made o)) -> side_w sides s t x \/ length (st_heap s0) <= x < length h) ->
  Eff sides sides t s0 (put (mkSt h (st_prox s)) p o).
Proof.
  intros [H1 H2 H3 H4 H5 H6] Hp Hg Hh Ho.
  assert (Hlt : p < length (st_prox s)) by (rewrite H1; eapply nth_error_some_lt; eauto).
  constructor; cbn [put st_heap st_prox]; auto.
  - rewrite length_list_set. auto.
  - intros q Hq. rewrite nth_error_list_set_neq; auto. intros ->. rewrite Hp in Hq. inversion Hq. destruct t; discriminate.
  - intros x (q & pr & Q1 & Q2 & Q3). cbn [put st_prox] in Q2. destruct (Nat.eq_dec p q) as [->|Hq].
    + rewrite nth_error_list_set_eq in Q2 by auto. inversion Q2; subst.
      destruct (Ho x Q3) as [Hw|]; [|auto].
      destruct (H4 x Hw); [left; lia|right; apply side_w_r; auto].
    + rewrite nth_error_list_set_neq in Q2 by auto.
      destruct (H3 x); [exists q, pr; auto|left; lia|auto].
  - intros x (q & pr & Q1 & Q2 & Q3). cbn [put st_prox] in Q2. destruct (Nat.eq_dec p q) as [->|Hq].
    + rewrite nth_error_list_set_eq in Q2 by auto. inversion Q2; subst.
      destruct (Ho x Q3) as [Hw|]; [|auto].
      destruct (H4 x Hw); [left; lia|auto].
    + rewrite nth_error_list_set_neq in Q2 by auto.
      destruct (H4 x); [exists q, pr; auto|left; lia|auto].
  - intros x Hx Hn. rewrite Hh by lia. auto.
  - lia.
Qed.

Lemma Eff_put_same sides t s0 s p o :
  Eff sides sides t s0 s -> nth_error sides p = Some t ->
  (forall x, In x (reaches (Made o)) -> side_w sides s t x \/ length (st_heap s0) <= x < length (st_heap s)) ->
  Eff sides sides t s0 (put s p o).
Proof. intros H1 H2 H3. destruct s as [h pr]. apply (Eff_put sides t s0 (mkSt h pr) h p o); auto. Qed.

Lemma made_side_w sides t s p o x :
  nth_error sides p = Some t -> nth_error (st_prox s) p = Some (Made o) -> In x (reaches (Made o)) ->
  side_w sides s t x.
Proof. intros. exists p, (Made o). auto. Qed.

(** First access. *)
Lemma Eff_touch sides t s0 s p :
  Eff sides sides t s0 s -> nth_error sides p = Some t ->
  Eff sides sides t s0 (snd (touch s p)) /\
  length (st_heap s) <= length (st_heap (snd (touch s p))) /\
  (forall o, fst (touch s p) = Ok o -> nth_error (st_prox (snd (touch s p))) p = Some (Made o)).
Proof.
  intros H Hp. unfold touch.
  destruct (nth_error (st_prox s) p) as [[a|o]|] eqn:E; cbn [fst snd].
  - assert (Hlt := nth_error_some_lt _ _ _ E).
    destruct (init_obj (st_heap s) a) as [[o h]|e] eqn:Ei; cbn [fst snd].
    + apply init_obj_made in Ei as (_ & x1 & x2 & x3 & _ & G & N & B & _).
      split; [|split].
      * apply Eff_put; auto. intros x Hx. destruct (B x Hx) as [[B1 B2]|B1].
        -- left. exists p, (Pending a). cbn [writes]. rewrite B1. auto.
        -- right. destruct H as [_ _ _ _ _ Hg]. lia.
      * cbn. lia.
      * intros o' Ho. inversion Ho; subst. cbn [put st_prox]. apply nth_error_list_set_eq; auto.
    + split; [|split]; cbn; auto; try discriminate.
      apply Eff_put_same; auto. cbn. intros x [].
  - split; [auto|]. split; [auto|]. intros o' Ho. inversion Ho; subst. exact E.
  - split; [auto|]. split; [auto|]. discriminate.
Qed.

Lemma get_fld_reaches o f t : get_fld o f = Ok t -> In (t_base t) (reaches (Made o)).
Proof.
  unfold get_fld, slot. cbn [reaches]. destruct f; intro H.
  - destruct (o_sos o); inversion H; subst. apply in_or_app. left. left. reflexivity.
  - destruct (o_eos o); inversion H; subst. apply in_or_app. right. apply in_or_app. left. left. reflexivity.
  - destruct (o_lens o); inversion H; subst. apply in_or_app. right. apply in_or_app. right. left. reflexivity.
Qed.

Lemma reaches_set_fld o f t x :
  In x (reaches (Made (set_fld o f t))) -> x = t_base t \/ In x (reaches (Made o)).
Proof.
  cbn [reaches]. destruct f; cbn [set_fld o_sos o_eos o_lens otref]; rewrite !in_app_iff; cbn [In]; intuition.
Qed.

(** Storage of a built object of the group. *)
Definition side_m (sides : list bool) (s : state) (t : bool) (x : nat) : Prop :=
  exists p o, nth_error sides p = Some t /\ nth_error (st_prox s) p = Some (Made o) /\ In x (reaches (Made o)).

Lemma side_m_w sides s t x : side_m sides s t x -> side_w sides s t x.
Proof. intros (p & o & H). exists p, (Made o). exact H. Qed.

Lemma touch_keeps_m sides t s p x : side_m sides s t x -> side_m sides (snd (touch s p)) t x.
Proof.
  intros (q & o & Q1 & Q2 & Q3). unfold touch.
  assert (K : forall h o', (exists a, nth_error (st_prox s) p = Some (Pending a)) ->
              side_m sides (put (mkSt h (st_prox s)) p o') t x).
  { intros h o' (a & E). exists q, o. cbn [put st_prox]. rewrite nth_error_list_set_neq; auto.
    intros ->. congruence. }
  destruct (nth_error (st_prox s) p) as [[a|o']|] eqn:E; cbn [snd]; try (exists q, o; auto; fail).
  destruct (init_obj (st_heap s) a) as [[o' h]|e]; cbn [snd]; apply K; eauto.
Qed.

Lemma source_keeps_m sides t s y x : side_m sides s t x -> side_m sides (snd (source s y)) t x.
Proof.
  intro H. destruct y as [l n|q f]; cbn [source].
  - exact H.
  - pose proof (touch_keeps_m sides t s q x H) as K.
    destruct (touch s q) as [[o|e] s1]; exact K.
Qed.

(** A source of the group. *)
Definition usable sides t (s0 s : state) (a : tref) : Prop :=
  side_m sides s t (t_base a) \/ length (st_heap s0) <= t_base a < length (st_heap s).

Lemma usable_w sides t s0 s a : usable sides t s0 s a ->
  side_w sides s t (t_base a) \/ length (st_heap s0) <= t_base a < length (st_heap s).
Proof. intros [H|H]; [left; apply side_m_w; auto|auto]. Qed.

Lemma Eff_source sides t s0 s x r s1 :
  Eff sides sides t s0 s -> (forall q, In q (src_objs x) -> nth_error sides q = Some t) ->
  source s x = (r, s1) ->
  Eff sides sides t s0 s1 /\ length (st_heap s) <= length (st_heap s1) /\
  (forall a, r = Ok a -> usable sides t s0 s1 a) /\
  (forall a, usable sides t s0 s a -> usable sides t s0 s1 a).
Proof.
  intros H Hq Hs.
  assert (P : length (st_heap s) <= length (st_heap s1) -> forall a, usable sides t s0 s a -> usable sides t s0 s1 a).
  { intros G a [Ha|Ha]; [left|right; lia].
    pose proof (source_keeps_m sides t s x (t_base a) Ha) as K. rewrite Hs in K. exact K. }
  destruct x as [l n|q f]; cbn [source] in Hs.
  - unfold talloc in Hs. inversion Hs; subst. split; [apply Eff_alloc; auto|].
    cbn [st_heap] in *. rewrite app_length in *. cbn [length] in *.
    assert (G : length (st_heap s) <= length (st_heap s) + 1) by lia.
    split; [exact G|]. split; [|apply (P G)].
    intros a Ha. inversion Ha; subst. right. cbn [t_base st_heap]. rewrite app_length. cbn [length].
    destruct H as [_ _ _ _ _ Hg]. lia.
  - destruct (Eff_touch sides t s0 s q H) as (E & G & M); [apply Hq; left; reflexivity|].
    destruct (touch s q) as [[o|e] s2] eqn:Et; cbn [fst snd] in *; inversion Hs; subst.
    + split; [auto|]. split; [auto|]. split; [|apply (P G)]. intros a Ha. left. exists q, o.
      split; [apply Hq; left; reflexivity|]. split; [auto|]. apply (get_fld_reaches o f); auto.
    + split; [auto|]. split; [auto|]. split; [discriminate|apply (P G)].
Qed.

(** A new proxy of the group. *)
Lemma Eff_push sides t s0 s a :
  Eff sides sides t s0 s ->
  (forall x, In x (reaches (Pending a)) -> side_m sides s t x \/ length (st_heap s0) <= x < length (st_heap s)) ->
  Eff sides (sides ++ [t]) t s0 (snd (push s a)).
Proof.
  intros [H1 H2 H3 H4 H5 H6] Ha.
  constructor; cbn [push snd st_heap st_prox]; auto.
  - rewrite !app_length, H1. reflexivity.
  - intros q Hq. rewrite nth_error_app1; auto. rewrite H1. eapply nth_error_some_lt; eauto.
  - intros x (q & pr & Q1 & Q2 & Q3). cbn [push snd st_prox] in Q2.
    destruct (Nat.lt_ge_cases q (length sides)) as [L|L].
    + rewrite nth_error_app1 in Q1 by auto. rewrite nth_error_app1 in Q2 by lia.
      apply H3. exists q, pr. auto.
    + assert (q = length (st_prox s)).
      { apply nth_error_some_lt in Q2. rewrite app_length in Q2. cbn in Q2. lia. }
      subst q. rewrite nth_error_app2, Nat.sub_diag in Q2 by lia. inversion Q2; subst.
      destruct (Ha x Q3) as [Hm|]; [|auto].
      destruct (H4 x (side_m_w _ _ _ _ Hm)); [auto|right; apply side_w_r; auto].
  - intros x (q & pr & Q1 & Q2 & Q3). cbn [push snd st_prox] in Q2.
    destruct (Nat.lt_ge_cases q (length sides)) as [L|L].
    + rewrite nth_error_app1 in Q1 by auto. rewrite nth_error_app1 in Q2 by lia.
      apply H4. exists q, pr. auto.
    + assert (q = length (st_prox s)).
      { apply nth_error_some_lt in Q2. rewrite app_length in Q2. cbn in Q2. lia. }
      subst q. rewrite nth_error_app2, Nat.sub_diag in Q2 by lia. inversion Q2; subst.
      apply writes_reaches in Q3.
      destruct (Ha x Q3) as [Hm|]; [|auto].
      destruct (H4 x (side_m_w _ _ _ _ Hm)); [auto|auto].
Qed.

Lemma reaches_update_lengths h o o' : update_lengths h o = Ok o' -> reaches (Made o') = reaches (Made o).
Proof.
  unfold update_lengths, get_fld. destruct (o_lupd o) as [[|]|]; cbn; try discriminate.
  - destruct (o_lens o) as [t|]; cbn; try discriminate.
    destruct (zmin _); cbn; try discriminate. destruct (zmax _); cbn; try discriminate.
    intro H; inversion H; subst. reflexivity.
  - intro H; inversion H; subst; reflexivity.
Qed.

Lemma reaches_update_logicals h o o' : update_logicals h o = Ok o' -> reaches (Made o') = reaches (Made o).
Proof.
  unfold update_logicals, get_fld. destruct (o_fupd o) as [[|]|]; cbn; try discriminate.
  - destruct (o_sos o) as [t|]; cbn; try discriminate.
    destruct (o_eos o) as [t'|]; cbn; try discriminate.
    intro H; inversion H; subst. reflexivity.
  - intro H; inversion H; subst; reflexivity.
Qed.

Lemma reaches_read h o g : reaches (Made (snd (read h o g))) = reaches (Made o).
Proof.
  destruct g; cbn [read snd]; try reflexivity;
    (unfold length_summary; destruct (update_lengths h o) eqn:E; [apply (reaches_update_lengths _ _ _ E)|reflexivity]) ||
    (unfold flag_summary; destruct (update_logicals h o) eqn:E; [apply (reaches_update_logicals _ _ _ E)|reflexivity]).
Qed.

Definition extra_of (t : bool) (r : res out) : list bool :=
  match r with Ok (ONew _) => [t] | _ => [] end.

Lemma Eff_set_at sides t s0 s p o f x :
  Eff sides sides t s0 s -> nth_error sides p = Some t -> nth_error (st_prox s) p = Some (Made o) ->
  Eff sides (sides ++ extra_of t (fst (set_at s p o f x))) t s0 (snd (set_at s p o f x)).
Proof.
  intros H Hp Ho. unfold set_at.
  destruct (get_fld o FLens) as [tl|e1] eqn:E1; cbn [bind]; [|cbn; rewrite app_nil_r; auto].
  destruct (get_fld o f) as [tm|e1] eqn:E2; cbn [bind]; [|cbn; rewrite app_nil_r; auto].
  destruct (tensor_mask _ _) as [sel|e1]; cbn [bind]; [|cbn; rewrite app_nil_r; auto].
  destruct (broadcast (length sel) x) as [w|e1]; cbn [fst snd extra_of]; rewrite app_nil_r; auto.
  assert (W : side_w sides s t (t_base tl)).
  { eapply made_side_w; eauto. apply (get_fld_reaches o FLens); auto. }
  apply Eff_put_same; auto.
  - apply Eff_write; auto.
  - intros y Hy. left. apply reaches_set_fld in Hy as [->|Hy]; [exact W|].
    exists p, (Made o). auto.
Qed.

Lemma derive_reaches o c fi ft a :
  (forall t, t_base (ft t) = t_base t) ->
  derive o c fi ft = Ok a -> forall x, In x (reaches (Pending a)) -> In x (reaches (Made o)).
Proof.
  intros Hft. unfold derive.
  destruct (slot (o_ids o)) as [i|]; cbn [bind]; [|discriminate].
  destruct (get_fld o FSos) as [ts|] eqn:E1; cbn [bind]; [|discriminate].
  destruct (get_fld o FEos) as [te|] eqn:E2; cbn [bind]; [|discriminate].
  destruct (get_fld o FLens) as [tl|] eqn:E3; cbn [bind]; [|discriminate].
  intro H; inversion H; subst. intros x [<-|[<-|[<-|[]]]]; cbn [a_sos a_eos a_lens]; rewrite Hft;
    eapply get_fld_reaches; eauto.
Qed.

Lemma Eff_derived sides t s p c fi ft :
  (forall t, t_base (ft t) = t_base t) ->
  length (st_prox s) = length sides -> nth_error sides p = Some t ->
  Eff sides (sides ++ extra_of t (fst (derived s p c fi ft))) t s (snd (derived s p c fi ft)).
Proof.
  intros Hft Hl Hp. unfold derived.
  destruct (Eff_touch sides t s s p (Eff_refl _ _ _ Hl) Hp) as (E & _ & M).
  destruct (touch s p) as [[o|e] s1]; cbn [fst snd] in *; [|cbn; rewrite app_nil_r; auto].
  destruct (derive o c fi ft) as [a|e] eqn:Ed; [|cbn; rewrite app_nil_r; auto].
  cbn [push fst extra_of]. apply (Eff_push sides t s s1 a); auto.
  intros x Hx. left. exists p, o. split; [auto|]. split; [auto|].
  eapply derive_reaches; eauto.
Qed.

(** Every operation respects the groups. *)
Lemma step_Eff sides t s c :
  length (st_prox s) = length sides -> owned sides t c ->
  Eff sides (sides ++ extra_of t (fst (step s c))) t s (snd (step s c)).
Proof.
  intros Hl Ho. pose proof (Eff_refl sides t s Hl) as H0. unfold owned in Ho.
  destruct c as [i xs xe xl|p g|p f x|p f g x|p f x|p f g x|p|p|p lo hi]; cbn [step objs] in *.
  - destruct (source s xs) as [r1 s1] eqn:E1.
    destruct (Eff_source sides t s s xs r1 s1 H0) as (A1 & G1 & U1 & _); auto.
    { intros q Hq. apply Ho. apply in_or_app. auto. }
    destruct r1 as [ts|e]; [|cbn; rewrite app_nil_r; auto].
    destruct (source s1 xe) as [r2 s2] eqn:E2.
    destruct (Eff_source sides t s s1 xe r2 s2 A1) as (A2 & G2 & U2 & K2); auto.
    { intros q Hq. apply Ho. apply in_or_app. right. apply in_or_app. auto. }
    destruct r2 as [te|e]; [|cbn; rewrite app_nil_r; auto].
    destruct (source s2 xl) as [r3 s3] eqn:E3.
    destruct (Eff_source sides t s s2 xl r3 s3 A2) as (A3 & G3 & U3 & K3); auto.
    { intros q Hq. apply Ho. apply in_or_app. right. apply in_or_app. auto. }
    destruct r3 as [tl|e]; [|cbn; rewrite app_nil_r; auto].
    cbn [push fst extra_of]. apply (Eff_push sides t s s3); auto.
    cbn [reaches a_sos a_eos a_lens In]. intros x [<-|[<-|[<-|[]]]].
    + apply K3, K2, U1. reflexivity.
    + apply K3, U2. reflexivity.
    + apply U3. reflexivity.
  - assert (Hp : nth_error sides p = Some t) by (apply Ho; left; auto).
    destruct (Eff_touch sides t s s p H0 Hp) as (E & _ & M).
    destruct (touch s p) as [[o|e] s1]; cbn [fst snd] in *; [|cbn; rewrite app_nil_r; auto].
    specialize (M o eq_refl).
    destruct (read (st_heap s1) o g) as [r o'] eqn:Er. cbn [fst snd].
    assert (X : extra_of t r = []).
    { assert (r = fst (read (st_heap s1) o g)) as -> by (rewrite Er; reflexivity). clear.
      destruct g; cbn [read fst]; try (destruct (slot _) || destruct (get_fld _ _) || destruct (masked_lengths _ _ _));
        try reflexivity;
      (unfold length_summary; destruct (update_lengths (st_heap s1) o) as [o1|]; cbn [fst]; [|reflexivity];
         destruct (slot (o_mm o1)); reflexivity) ||
      (unfold flag_summary; destruct (update_logicals (st_heap s1) o) as [o1|]; cbn [fst]; [|reflexivity];
         destruct (slot (o_fl o1)); reflexivity). }
    rewrite X, app_nil_r.
    apply Eff_put_same; auto. intros x Hx. left. exists p, (Made o).
    split; [auto|]. split; [auto|]. cbn [writes].
    rewrite <- (reaches_read (st_heap s1) o g), Er. exact Hx.
  - assert (Hp : nth_error sides p = Some t) by (apply Ho; left; auto).
    destruct (source s x) as [r1 s1] eqn:E1.
    destruct (Eff_source sides t s s x r1 s1 H0) as (A1 & G1 & U1 & _); auto.
    { intros q Hq. apply Ho. right. auto. }
    destruct r1 as [a|e]; [|cbn; rewrite app_nil_r; auto].
    destruct (Eff_touch sides t s s1 p A1 Hp) as (E & G & M).
    pose proof (touch_keeps_m sides t s1 p (t_base a)) as K.
    destruct (touch s1 p) as [[o|e] s2]; cbn [fst snd] in *; [|cbn; rewrite app_nil_r; auto].
    cbn [extra_of]. rewrite app_nil_r. specialize (M o eq_refl).
    apply Eff_put_same; auto. intros y Hy. apply reaches_set_fld in Hy as [->|Hy].
    + destruct (U1 a eq_refl) as [Ua|Ua]; [left; apply side_m_w; auto|right; lia].
    + left. exists p, (Made o). auto.
  - assert (Hp : nth_error sides p = Some t) by (apply Ho; left; auto).
    destruct (Eff_touch sides t s s p H0 Hp) as (E & _ & M).
    destruct (touch s p) as [[o|e] s1]; cbn [fst snd] in *; [|cbn; rewrite app_nil_r; auto].
    specialize (M o eq_refl).
    destruct (get_fld o f) as [a|e] eqn:Ef; [|cbn; rewrite app_nil_r; auto].
    destruct (elementwise _ _ _) as [v|e]; [|cbn; rewrite app_nil_r; auto].
    cbn [fst snd extra_of]. rewrite app_nil_r.
    assert (W : side_w sides s1 t (t_base a)).
    { eapply made_side_w; eauto. eapply get_fld_reaches; eauto. }
    apply Eff_put_same; auto.
    + apply Eff_write; auto.
    + intros y Hy. left. apply reaches_set_fld in Hy as [->|Hy]; [exact W|]. exists p, (Made o). auto.
  - assert (Hp : nth_error sides p = Some t) by (apply Ho; left; auto).
    destruct (Eff_touch sides t s s p H0 Hp) as (E & _ & M).
    destruct (touch s p) as [[o|e] s1]; cbn [fst snd] in *; [|cbn; rewrite app_nil_r; auto].
    apply Eff_set_at; auto.
  - assert (Hp : nth_error sides p = Some t) by (apply Ho; left; auto).
    destruct (Eff_touch sides t s s p H0 Hp) as (E & _ & M).
    destruct (touch s p) as [[o|e] s1]; cbn [fst snd] in *; [|cbn; rewrite app_nil_r; auto].
    destruct (masked_lengths _ _ _) as [v|e]; cbn [bind]; [|cbn; rewrite app_nil_r; auto].
    destruct (elementwise g v x) as [w|e]; [|cbn; rewrite app_nil_r; auto].
    apply Eff_set_at; auto.
  - apply Eff_derived; auto; apply Ho; left; auto.
  - apply Eff_derived; auto; apply Ho; left; auto.
  - apply Eff_derived; auto; apply Ho; left; auto.
Qed.

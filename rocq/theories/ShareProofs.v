(** Proofs about Share.v. *)

From Coq Require Import String List ZArith Bool Lia.
From Coq Require Import ZifyBool.
From Verif Require Import Py Meta MetaSpec MetaLenProofs Pad Conv Stack Share ShareSpec.
Import ListNotations.
Open Scope Z_scope.

Lemma list_set_length {A} : forall (l : list A) n a, length (list_set l n a) = length l.
Proof. induction l as [|b l IH]; intros [|n] a; cbn; auto. Qed.

Lemma nth_error_set_same {A} : forall (l : list A) n a, (n < length l)%nat -> nth_error (list_set l n a) n = Some a.
Proof. induction l as [|b l IH]; intros [|n] a H; cbn in *; try lia; auto. apply IH. lia. Qed.

Lemma nth_error_set_other {A} : forall (l : list A) n m a, n <> m -> nth_error (list_set l n a) m = nth_error l m.
Proof. induction l as [|b l IH]; intros [|n] [|m] a H; cbn; auto; try congruence. Qed.

Lemma nth_set_same {A} : forall (l : list A) n a d, (n < length l)%nat -> nth n (list_set l n a) d = a.
Proof. intros. apply nth_error_nth. now apply nth_error_set_same. Qed.

Lemma nth_set_other {A} : forall (l : list A) n m a d, n <> m -> nth m (list_set l n a) d = nth m l d.
Proof.
  intros l n m a d H. destruct (nth_error l m) as [b|] eqn:E.
  - rewrite (nth_error_nth l m d E). apply nth_error_nth. now rewrite nth_error_set_other.
  - apply nth_error_None in E. rewrite !nth_overflow; auto. now rewrite list_set_length.
Qed.

Lemma list_set_nth {A} : forall (l : list A) n d, list_set l n (nth n l d) = l.
Proof. induction l as [|b l IH]; intros [|n] d; cbn; auto. now rewrite IH. Qed.

Lemma nth_app_l {A} : forall (l r : list A) n d, (n < length l)%nat -> nth n (l ++ r) d = nth n l d.
Proof. intros. now apply app_nth1. Qed.

Lemma nth_app_new {A} : forall (l : list A) a d, nth (length l) (l ++ [a]) d = a.
Proof. intros. rewrite app_nth2, Nat.sub_diag; auto. Qed.

Lemma nth_error_new {A} : forall (l : list A) a, nth_error (l ++ [a]) (length l) = Some a.
Proof. intros. now rewrite nth_error_app2, Nat.sub_diag by lia. Qed.

Lemma nth_error_lt {A} : forall (l : list A) i a, nth_error l i = Some a -> (i < length l)%nat.
Proof. intros l i a E. apply nth_error_Some. congruence. Qed.

Lemma nth_error_app_inv {A} : forall (l : list A) a i b,
  nth_error (l ++ [a]) i = Some b -> (i < length l)%nat /\ nth_error l i = Some b \/ i = length l /\ b = a.
Proof.
  intros l a i b E. destruct (Nat.lt_ge_cases i (length l)) as [H|H].
  - left. split; auto. now rewrite nth_error_app1 in E.
  - right. pose proof (nth_error_lt _ _ _ E) as H1. rewrite app_length in H1. cbn in H1.
    assert (i = length l) by lia. subst. rewrite nth_error_new in E. now injection E.
Qed.

Section ShareProofs.
Context {V : Type}.

Definition cell (o : mobj) : nat := match o_len o with Own k | Later k => k end.

(** Variable [i]: its StreamTensor, its value, its tag; it is as it should be. *)
Record at_ (s : state V) (xs : list (batch V)) (ts : list tag) (i : nat) (xv : svar) (x : batch V) (t : tag) : Prop := mkAt {
  a_var : nth_error (vars s) i = Some xv;
  a_x : nth_error xs i = Some x;
  a_t : nth_error ts i = Some t;
  a_ok : t_ok t = true }.

Definition seen (s : state V) (xv : svar) (x : batch V) : Prop :=
  exists o, nth_error (objs s) (v_obj xv) = Some o /\ (cell o < length (lcells s))%nat /\
    (v_data xv < length (datas s))%nat /\ see s xv = x.

Record Inv (s : state V) (xs : list (batch V)) (ts : list tag) : Prop := mkInv {
  I_vars : length (vars s) = length ts;
  I_xs : length xs = length ts;
  I_bound : forall i t, nth_error ts i = Some t ->
    (t_fam t < length ts)%nat /\ forall g, t_src t = Some g -> (g < length ts)%nat;
  I_see : forall i xv x t, at_ s xs ts i xv x t -> seen s xv x;
  I_fam : forall i xv x t j yv y u, at_ s xs ts i xv x t -> at_ s xs ts j yv y u ->
    (t_fam t = t_fam u <-> v_obj xv = v_obj yv);
  I_own : forall i xv x t j yv y u a b k, at_ s xs ts i xv x t -> at_ s xs ts j yv y u -> v_obj xv <> v_obj yv ->
    nth_error (objs s) (v_obj xv) = Some a -> nth_error (objs s) (v_obj yv) = Some b ->
    o_len a = Own k -> o_len b <> Own k;
  I_later : forall i xv x t j yv y u a b k, at_ s xs ts i xv x t -> at_ s xs ts j yv y u ->
    nth_error (objs s) (v_obj xv) = Some a -> nth_error (objs s) (v_obj yv) = Some b ->
    o_len a = Later k -> o_len b = Own k -> t_src t = Some (t_fam u);
  I_src : forall i xv x t j yv y u, at_ s xs ts i xv x t -> at_ s xs ts j yv y u -> t_src t = Some (t_fam u) ->
    exists a b k, nth_error (objs s) (v_obj xv) = Some a /\ nth_error (objs s) (v_obj yv) = Some b /\
      o_len a = Later k /\ o_len b = Own k }.

Lemma nth_objs (s : state V) o a d : nth_error (objs s) o = Some a -> nth o (objs s) d = a.
Proof. intros E. now apply nth_error_nth. Qed.

(** The view of a variable depends on its object, its cell and its data only. *)
Lemma see_ext (s s' : state V) xv o o' :
  nth_error (objs s) (v_obj xv) = Some o -> nth_error (objs s') (v_obj xv) = Some o' ->
  o_ids o' = o_ids o -> o_sos o' = o_sos o -> o_eos o' = o_eos o -> o_chs o' = o_chs o ->
  nth (cell o') (lcells s') [] = nth (cell o) (lcells s) [] ->
  nth (v_data xv) (datas s') [] = nth (v_data xv) (datas s) [] ->
  see s' xv = see s xv.
Proof.
  intros E E' H1 H2 H3 H4 H5 H6. unfold see. rewrite (nth_objs _ _ _ _ E), (nth_objs _ _ _ _ E'), H6. f_equal.
  unfold meta_at. unfold cell in H5. now rewrite H1, H2, H3, H4, H5.
Qed.

(** Adding a variable. *)
Lemma add_var (s s' : state V) xs ts nv y nt eo ec ed :
  Inv s xs ts ->
  vars s' = vars s ++ [nv] -> objs s' = objs s ++ eo -> lcells s' = lcells s ++ ec -> datas s' = datas s ++ ed ->
  seen s' nv y -> t_ok nt = true ->
  (t_fam nt <= length ts)%nat -> (forall g, t_src nt = Some g -> (g <= length ts)%nat) ->
  (forall j yv x u, at_ s xs ts j yv x u -> (t_fam nt = t_fam u <-> v_obj nv = v_obj yv)) ->
  (forall j yv x u a b k, at_ s xs ts j yv x u ->
     nth_error (objs s') (v_obj nv) = Some a -> nth_error (objs s') (v_obj yv) = Some b ->
     (v_obj nv <> v_obj yv -> o_len a = Own k -> o_len b <> Own k) /\
     (o_len a = Later k -> o_len b = Own k -> t_src nt = Some (t_fam u)) /\
     (o_len a = Own k -> o_len b = Later k -> t_src u = Some (t_fam nt))) ->
  (forall j yv x u a b, at_ s xs ts j yv x u ->
     nth_error (objs s') (v_obj nv) = Some a -> nth_error (objs s') (v_obj yv) = Some b ->
     (t_src nt = Some (t_fam u) -> exists k, o_len a = Later k /\ o_len b = Own k) /\
     (t_src u = Some (t_fam nt) -> exists k, o_len b = Later k /\ o_len a = Own k)) ->
  t_src nt <> Some (t_fam nt) ->
  Inv s' (xs ++ [y]) (ts ++ [nt]).
Proof.
  intros I Ev Eo Ec Ed Hs Hok Hf Hsrc Hfam Hall Hall' Hself. destruct I as [I1 I2 I3 I4 I5 I6 I7 I8].
  assert (SPLIT : forall i xv x t, at_ s' (xs ++ [y]) (ts ++ [nt]) i xv x t ->
             at_ s xs ts i xv x t \/ i = length ts /\ xv = nv /\ x = y /\ t = nt).
  { intros i xv x t [A1 A2 A3 A4]. rewrite Ev in A1. apply nth_error_app_inv in A3 as [[L A3]|[-> ->]].
    - left. rewrite nth_error_app1 in A1, A2 by lia. now split.
    - right. rewrite <- I1, nth_error_new in A1. rewrite <- I2, nth_error_new in A2. split; auto. split; [congruence|]. split; congruence. }
  assert (OLD : forall i xv x t, at_ s xs ts i xv x t ->
             exists o, nth_error (objs s) (v_obj xv) = Some o /\ nth_error (objs s') (v_obj xv) = Some o /\
               (cell o < length (lcells s))%nat /\ (v_data xv < length (datas s))%nat /\ see s xv = x).
  { intros i xv x t A. destruct (I4 _ _ _ _ A) as (o & E1 & E2 & E3 & E4). exists o. split; auto. split; auto.
    rewrite Eo, nth_error_app1; auto. eapply nth_error_lt; eauto. }
  split.
  - rewrite Ev, !app_length, I1. reflexivity.
  - rewrite !app_length, I2. reflexivity.
  - intros i t E. rewrite app_length. cbn [length]. apply nth_error_app_inv in E as [[L E]|[-> ->]].
    + destruct (I3 _ _ E) as [B1 B2]. split; [lia|]. intros g G. specialize (B2 g G). lia.
    + split; [lia|]. intros g G. specialize (Hsrc g G). lia.
  - intros i xv x t A. apply SPLIT in A as [A|(-> & -> & -> & ->)]; [|exact Hs].
    destruct (OLD _ _ _ _ A) as (o & E1 & E2 & E3 & E4 & E5). exists o. split; auto. rewrite Ec, Ed, !app_length.
    split; [lia|]. split; [lia|]. rewrite <- E5. apply (see_ext s s' xv o o); auto.
    + rewrite Ec. now apply nth_app_l.
    + rewrite Ed. now apply nth_app_l.
  - intros i xv x t j yv y' u A B. apply SPLIT in A as [A|(-> & -> & -> & ->)]; apply SPLIT in B as [B|(-> & -> & -> & ->)].
    + eapply I5; eauto.
    + destruct (Hfam _ _ _ _ A) as [H1 H2]. split; intros E; symmetry; auto.
    + exact (Hfam _ _ _ _ B).
    + tauto.
  - intros i xv x t j yv y' u a b k A B N Ea Eb Ka.
    apply SPLIT in A as [A|(-> & -> & -> & ->)]; apply SPLIT in B as [B|(-> & -> & -> & ->)].
    + destruct (OLD _ _ _ _ A) as (oa & F1 & F2 & _). destruct (OLD _ _ _ _ B) as (ob & G1 & G2 & _).
      apply (I6 _ _ _ _ _ _ _ _ a b k A B N); congruence.
    + intros Kb. destruct (Hall _ _ _ _ b a k A Eb Ea) as (H & _). apply (H (not_eq_sym N) Kb Ka).
    + destruct (Hall _ _ _ _ a b k B Ea Eb) as (H & _). auto.
    + congruence.
  - intros i xv x t j yv y' u a b k A B Ea Eb Ka Kb.
    apply SPLIT in A as [A|(-> & -> & -> & ->)]; apply SPLIT in B as [B|(-> & -> & -> & ->)].
    + destruct (OLD _ _ _ _ A) as (oa & F1 & F2 & _). destruct (OLD _ _ _ _ B) as (ob & G1 & G2 & _).
      apply (I7 _ _ _ _ _ _ _ _ a b k A B); congruence.
    + destruct (Hall _ _ _ _ b a k A Eb Ea) as (_ & _ & H). auto.
    + destruct (Hall _ _ _ _ a b k B Ea Eb) as (_ & H & _). auto.
    + congruence.
  - intros i xv x t j yv y' u A B E.
    apply SPLIT in A as [A|(-> & -> & -> & ->)]; apply SPLIT in B as [B|(-> & -> & -> & ->)].
    + destruct (I8 _ _ _ _ _ _ _ _ A B E) as (a & b & k & E1 & E2 & E3). exists a, b, k.
      destruct (OLD _ _ _ _ A) as (oa & F1 & F2 & _). destruct (OLD _ _ _ _ B) as (ob & G1 & G2 & _).
      split; [congruence|]. split; [congruence|]. exact E3.
    + destruct (OLD _ _ _ _ A) as (b & F1 & F2 & _). destruct Hs as (a & E1 & _).
      destruct (Hall' _ _ _ _ _ _ A E1 F2) as (_ & H). destruct (H E) as (k & K1 & K2). exists b, a, k. auto.
    + destruct (OLD _ _ _ _ B) as (b & F1 & F2 & _). destruct Hs as (a & E1 & _).
      destruct (Hall' _ _ _ _ _ _ B E1 F2) as (H & _). destruct (H E) as (k & K1 & K2). exists a, b, k. auto.
    + contradiction.
Qed.

(** Reading the metadata of a variable. *)
Lemma nth_error_settle f ts i t : nth_error (settle f ts) i = Some t ->
  exists u, nth_error ts i = Some u /\ t_fam t = t_fam u /\ t_ok t = t_ok u /\
    t_src t = (if Nat.eqb (t_fam u) f then None else t_src u).
Proof.
  unfold settle. rewrite nth_error_map. destruct (nth_error ts i) as [u|]; [|discriminate]. intros [= <-]. exists u.
  destruct (Nat.eqb (t_fam u) f); auto.
Qed.

Lemma settle_nth f ts i u : nth_error ts i = Some u ->
  nth_error (settle f ts) i = Some (if Nat.eqb (t_fam u) f then mkTag (t_fam u) None (t_ok u) else u).
Proof. intros E. unfold settle. rewrite nth_error_map, E. reflexivity. Qed.

Lemma settle_length f ts : length (settle f ts) = length ts.
Proof. apply map_length. Qed.

Lemma touch_case (s : state V) xv (o : mobj) : nth_error (objs s) (v_obj xv) = Some o ->
  (exists k, o_len o = Own k /\ touch s (v_obj xv) = s) \/
  (exists k, o_len o = Later k /\
     touch s (v_obj xv) = mkS (lcells s ++ [nth k (lcells s) []])
        (list_set (objs s) (v_obj xv) (mkO (o_ids o) (o_sos o) (o_eos o) (o_chs o) (Own (length (lcells s)))))
        (datas s) (vars s) (bufs s)).
Proof.
  intros E. unfold touch. rewrite E. destruct o as [i b e c [k|k]]; cbn [o_len o_ids o_sos o_eos o_chs]; [left|right]; exists k; auto.
Qed.

Lemma touch_inv (s : state V) xs ts v xv x t : Inv s xs ts -> at_ s xs ts v xv x t ->
  Inv (touch s (v_obj xv)) xs (settle (t_fam t) ts) /\ vars (touch s (v_obj xv)) = vars s /\ bufs (touch s (v_obj xv)) = bufs s /\
  exists o k, nth_error (objs (touch s (v_obj xv))) (v_obj xv) = Some o /\ o_len o = Own k.
Proof.
  intros I A. pose proof I as [I1 I2 I3 I4 I5 I6 I7 I8]. destruct (I4 _ _ _ _ A) as (o & E1 & E2 & E3 & E4).
  assert (BACK : forall s' i yv y u, vars s' = vars s -> at_ s' xs (settle (t_fam t) ts) i yv y u ->
            exists u0, at_ s xs ts i yv y u0 /\ t_fam u = t_fam u0 /\ t_src u = (if Nat.eqb (t_fam u0) (t_fam t) then None else t_src u0)).
  { intros s' i yv y u Ev [B1 B2 B3 B4]. apply nth_error_settle in B3 as (u0 & C1 & C2 & C3 & C4). exists u0. rewrite Ev in B1.
    split; [split; auto; congruence|auto]. }
  assert (BND : forall i u, nth_error (settle (t_fam t) ts) i = Some u ->
            (t_fam u < length (settle (t_fam t) ts))%nat /\ forall g, t_src u = Some g -> (g < length (settle (t_fam t) ts))%nat).
  { intros i u E. rewrite settle_length. apply nth_error_settle in E as (u0 & C1 & C2 & C3 & C4). destruct (I3 _ _ C1) as [D1 D2].
    rewrite C2. split; auto. intros g G. rewrite C4 in G. destruct (Nat.eqb (t_fam u0) (t_fam t)); [discriminate|auto]. }
  destruct (touch_case s xv o E1) as [(k & K & ->)|(k & K & ->)].
  - split; [|split; [reflexivity|split; [reflexivity|eauto]]]. split.
    + now rewrite settle_length.
    + now rewrite settle_length.
    + exact BND.
    + intros i yv y u B. destruct (BACK s _ _ _ _ eq_refl B) as (u0 & B0 & _). eauto.
    + intros i yv y u j zv z w B C. destruct (BACK s _ _ _ _ eq_refl B) as (u0 & B0 & F1 & _).
      destruct (BACK s _ _ _ _ eq_refl C) as (w0 & C0 & F2 & _). rewrite F1, F2. eauto.
    + intros i yv y u j zv z w a b l B C. destruct (BACK s _ _ _ _ eq_refl B) as (u0 & B0 & F1 & _).
      destruct (BACK s _ _ _ _ eq_refl C) as (w0 & C0 & F2 & _). eauto.
    + intros i yv y u j zv z w a b l B C Ea Eb Ka Kb. destruct (BACK s _ _ _ _ eq_refl B) as (u0 & B0 & F1 & F1').
      destruct (BACK s _ _ _ _ eq_refl C) as (w0 & C0 & F2 & _).
      pose proof (I7 _ _ _ _ _ _ _ _ _ _ _ B0 C0 Ea Eb Ka Kb) as H. rewrite F1', F2, H.
      destruct (Nat.eqb_spec (t_fam u0) (t_fam t)) as [F|F]; auto. exfalso.
      apply (I5 _ _ _ _ _ _ _ _ B0 A) in F. rewrite F in Ea. congruence.
    + intros i yv y u j zv z w B C E. destruct (BACK s _ _ _ _ eq_refl B) as (u0 & B0 & F1 & F1').
      destruct (BACK s _ _ _ _ eq_refl C) as (w0 & C0 & F2 & _). apply (I8 _ _ _ _ _ _ _ _ B0 C0). rewrite <- F2, <- E, F1'.
      destruct (Nat.eqb (t_fam u0) (t_fam t)); auto. rewrite F1' in E. discriminate.
  - set (o' := mkO (o_ids o) (o_sos o) (o_eos o) (o_chs o) (Own (length (lcells s)))).
    pose proof (nth_error_lt _ _ _ E1) as LO.
    set (s' := mkS _ _ _ _ _).
    assert (SAME : nth_error (objs s') (v_obj xv) = Some o') by (cbn [objs s']; now apply nth_error_set_same).
    assert (OTHER : forall yv, v_obj yv <> v_obj xv -> nth_error (objs s') (v_obj yv) = nth_error (objs s) (v_obj yv))
      by (intros yv N; cbn [objs s']; apply nth_error_set_other; congruence).
    assert (CELL : forall i yv y u a, at_ s xs ts i yv y u -> nth_error (objs s) (v_obj yv) = Some a -> (cell a < length (lcells s))%nat).
    { intros i yv y u a B E. destruct (I4 _ _ _ _ B) as (o1 & G1 & G2 & _). congruence. }
    split; [|split; [reflexivity|split; [reflexivity|exists o', (length (lcells s)); auto]]]. split.
    + now rewrite settle_length.
    + now rewrite settle_length.
    + exact BND.
    + intros i yv y u B. destruct (BACK s' _ _ _ _ eq_refl B) as (u0 & B0 & _).
      destruct (I4 _ _ _ _ B0) as (a & G1 & G2 & G3 & G4). destruct (Nat.eq_dec (v_obj yv) (v_obj xv)) as [Q|Q].
      * exists o'. rewrite Q. split; auto. split; [cbn [cell o_len o' lcells s']; rewrite app_length; cbn; lia|]. split; auto.
        rewrite <- G4. rewrite Q in G1. assert (a = o) by congruence. subst a. apply (see_ext s s' yv o o'); rewrite ?Q; auto.
        cbn [cell o_len o' lcells s']. rewrite nth_app_new. unfold cell. now rewrite K.
      * exists a. rewrite OTHER by auto. split; auto. split; [cbn [lcells s']; rewrite app_length; lia|]. split; auto.
        rewrite <- G4. apply (see_ext s s' yv a a); auto; [rewrite OTHER; auto|]. cbn [lcells s']. now apply nth_app_l.
    + intros i yv y u j zv z w B C. destruct (BACK s' _ _ _ _ eq_refl B) as (u0 & B0 & F1 & _).
      destruct (BACK s' _ _ _ _ eq_refl C) as (w0 & C0 & F2 & _). rewrite F1, F2. eauto.
    + intros i yv y u j zv z w a b l B C N Ea Eb Ka. destruct (BACK s' _ _ _ _ eq_refl B) as (u0 & B0 & F1 & _).
      destruct (BACK s' _ _ _ _ eq_refl C) as (w0 & C0 & F2 & _). intros Kb.
      destruct (Nat.eq_dec (v_obj yv) (v_obj xv)) as [Q|Q]; [|destruct (Nat.eq_dec (v_obj zv) (v_obj xv)) as [Q'|Q']].
      * rewrite OTHER in Eb by congruence. rewrite Q, SAME in Ea. injection Ea as <-. cbn in Ka. injection Ka as <-.
        pose proof (CELL _ _ _ _ _ C0 Eb) as L. unfold cell in L. rewrite Kb in L. lia.
      * rewrite OTHER in Ea by congruence. rewrite Q', SAME in Eb. injection Eb as <-. cbn in Kb. injection Kb as <-.
        pose proof (CELL _ _ _ _ _ B0 Ea) as L. unfold cell in L. rewrite Ka in L. lia.
      * rewrite OTHER in Ea, Eb by auto. exact (I6 _ _ _ _ _ _ _ _ _ _ _ B0 C0 N Ea Eb Ka Kb).
    + intros i yv y u j zv z w a b l B C Ea Eb Ka Kb. destruct (BACK s' _ _ _ _ eq_refl B) as (u0 & B0 & F1 & F1').
      destruct (BACK s' _ _ _ _ eq_refl C) as (w0 & C0 & F2 & _).
      destruct (Nat.eq_dec (v_obj yv) (v_obj xv)) as [Q|Q]; [rewrite Q, SAME in Ea; injection Ea as <-; discriminate|].
      rewrite OTHER in Ea by auto. rewrite F1'. destruct (Nat.eqb_spec (t_fam u0) (t_fam t)) as [F|F].
      { exfalso. apply Q. now apply (I5 _ _ _ _ _ _ _ _ B0 A). }
      rewrite F2. destruct (Nat.eq_dec (v_obj zv) (v_obj xv)) as [Q'|Q'].
      * exfalso. rewrite Q', SAME in Eb. injection Eb as <-. cbn in Kb. injection Kb as <-.
        pose proof (CELL _ _ _ _ _ B0 Ea) as L. unfold cell in L. rewrite Ka in L. lia.
      * rewrite OTHER in Eb by auto. exact (I7 _ _ _ _ _ _ _ _ _ _ _ B0 C0 Ea Eb Ka Kb).
    + intros i yv y u j zv z w B C E. destruct (BACK s' _ _ _ _ eq_refl B) as (u0 & B0 & F1 & F1').
      destruct (BACK s' _ _ _ _ eq_refl C) as (w0 & C0 & F2 & _). rewrite F1' in E.
      destruct (Nat.eqb_spec (t_fam u0) (t_fam t)) as [F|F]; [discriminate|]. rewrite F2 in E.
      destruct (I8 _ _ _ _ _ _ _ _ B0 C0 E) as (a & b & l & G1 & G2 & G3 & G4). exists a, b, l.
      rewrite !OTHER; auto.
      * intros Q. rewrite Q in G2. congruence.
      * intros Q. apply F. now apply (I5 _ _ _ _ _ _ _ _ B0 A).
Qed.

Lemma at_settled (s s' : state V) xs ts f v xv x t : vars s' = vars s -> at_ s xs ts v xv x t ->
  exists u, at_ s' xs (settle f ts) v xv x u /\ t_fam u = t_fam t /\ (t_fam t = f -> t_src u = None).
Proof.
  intros Ev [A1 A2 A3 A4]. eexists. split; [split; [rewrite Ev; exact A1|exact A2|exact (settle_nth f ts v t A3)|]|].
  - destruct (Nat.eqb (t_fam t) f); auto.
  - destruct (Nat.eqb_spec (t_fam t) f); auto. split; [reflexivity|contradiction].
Qed.

(** A variable with the metadata object of an existing one. *)
Lemma share_inv (s : state V) xs ts v xv x t w rows : Inv s xs ts -> at_ s xs ts v xv x t ->
  Inv (bind_var s (v_obj xv) w rows) (xs ++ [mkBatch w rows (bm x)]) (ts ++ [t]).
Proof.
  intros I A. pose proof I as [I1 I2 I3 I4 I5 I6 I7 I8]. destruct (I4 _ _ _ _ A) as (o & E1 & E2 & E3 & E4).
  apply (add_var s _ xs ts (mkV (v_obj xv) (length (datas s)) w) _ t [] [] [rows]); auto; cbn [objs lcells bind_var v_obj]; rewrite ?app_nil_r; auto.
  - exists o. cbn [v_obj objs lcells datas bind_var v_data]. rewrite app_length. cbn [length]. repeat (split; [auto; lia|]).
    unfold see. cbn [v_obj objs lcells datas bind_var v_data v_w]. rewrite nth_app_new. f_equal. rewrite <- E4. reflexivity.
  - apply (a_ok _ _ _ _ _ _ _ A).
  - destruct (I3 _ _ (a_t _ _ _ _ _ _ _ A)). lia.
  - intros g G. destruct (I3 _ _ (a_t _ _ _ _ _ _ _ A)) as [_ H]. specialize (H g G). lia.
  - intros j yv y u B. apply (I5 _ _ _ _ _ _ _ _ A B).
  - intros j yv y u a b k B Ea Eb. split; [|split].
    + intros N Ka. exact (I6 _ _ _ _ _ _ _ _ _ _ _ A B N Ea Eb Ka).
    + intros Ka Kb. exact (I7 _ _ _ _ _ _ _ _ _ _ _ A B Ea Eb Ka Kb).
    + intros Ka Kb. exact (I7 _ _ _ _ _ _ _ _ _ _ _ B A Eb Ea Kb Ka).
  - intros j yv y u a b B Ea Eb. split; intros E.
    + destruct (I8 _ _ _ _ _ _ _ _ A B E) as (a' & b' & l & G1 & G2 & G3 & G4). exists l. split; congruence.
    + destruct (I8 _ _ _ _ _ _ _ _ B A E) as (a' & b' & l & G1 & G2 & G3 & G4). exists l. split; congruence.
  - intros E. destruct (I8 _ _ _ _ _ _ _ _ A A E) as (a' & b' & l & G1 & G2 & G3 & G4). congruence.
Qed.

(** A variable with a new metadata object. *)
Lemma new_inv (s : state V) xs ts y : Inv s xs ts ->
  Inv (bind_new s (bm y) (bw y) (bd y)) (xs ++ [y]) (ts ++ [mkTag (length ts) None true]).
Proof.
  intros I. pose proof I as [I1 I2 I3 I4 I5 I6 I7 I8].
  assert (NEW : nth_error (objs (bind_new s (bm y) (bw y) (bd y))) (length (objs s))
                = Some (mkO (ids (bm y)) (sos (bm y)) (eos (bm y)) (chs (bm y)) (Own (length (lcells s))))) by apply nth_error_new.
  assert (OLD : forall j yv x u, at_ s xs ts j yv x u -> v_obj yv <> length (objs s)).
  { intros j yv x u B E. destruct (I4 _ _ _ _ B) as (o & G & _). apply nth_error_lt in G. lia. }
  apply (add_var s _ xs ts (mkV (length (objs s)) (length (datas s)) (bw y)) _ _
          [mkO (ids (bm y)) (sos (bm y)) (eos (bm y)) (chs (bm y)) (Own (length (lcells s)))] [lens (bm y)] [bd y]); auto; cbn [v_obj t_fam t_src].
  - eexists. cbn [v_obj v_data]. split; [exact NEW|]. cbn [cell o_len lcells datas bind_new]. rewrite !app_length. cbn [length].
    split; [lia|]. split; [lia|]. unfold see. cbn [v_obj v_data v_w datas]. rewrite (nth_objs _ _ _ _ NEW). unfold meta_at.
    cbn [o_ids o_sos o_eos o_chs o_len lcells bind_new datas]. rewrite !nth_app_new. destruct y as [w r [i b e l c]]. reflexivity.
  - discriminate.
  - intros j yv x u B. split; intros E; exfalso.
    + destruct (I3 _ _ (a_t _ _ _ _ _ _ _ B)). lia.
    + apply (OLD _ _ _ _ B). auto.
  - intros j yv x u a b k B Ea Eb. rewrite NEW in Ea. injection Ea as <-. cbn [o_len].
    destruct (I4 _ _ _ _ B) as (o & G1 & G2 & _).
    assert (o = b). { cbn [objs bind_new] in Eb. rewrite nth_error_app1 in Eb by (eapply nth_error_lt; eauto). congruence. }
    subst o. unfold cell in G2. split; [|split].
    + intros _ [= <-] Kb. rewrite Kb in G2. lia.
    + discriminate.
    + intros [= <-] Kb. rewrite Kb in G2. lia.
  - intros j yv x u a b B Ea Eb. split; [discriminate|]. intros E. exfalso.
    destruct (I3 _ _ (a_t _ _ _ _ _ _ _ B)) as [_ H]. specialize (H _ E). lia.
  - discriminate.
Qed.

(** A view of a variable whose metadata has been built. *)
Lemma view_inv (s : state V) xs ts v xv x t i b e c l : Inv s xs ts -> at_ s xs ts v xv x t ->
  nth_error (objs s) (v_obj xv) = Some (mkO i b e c (Own l)) ->
  Inv (mkS (lcells s) (objs s ++ [mkO i b e c (Later l)]) (datas s) (vars s ++ [mkV (length (objs s)) (v_data xv) (v_w xv)]) (bufs s))
      (xs ++ [x]) (ts ++ [mkTag (length ts) (Some (t_fam t)) true]).
Proof.
  intros I A E. pose proof I as [I1 I2 I3 I4 I5 I6 I7 I8]. set (s' := mkS _ _ _ _ _).
  assert (NEW : nth_error (objs s') (length (objs s)) = Some (mkO i b e c (Later l))) by apply nth_error_new.
  destruct (I4 _ _ _ _ A) as (o & E1 & E2 & E3 & E4). assert (o = mkO i b e c (Own l)) by congruence. subst o.
  apply (add_var s s' xs ts (mkV (length (objs s)) (v_data xv) (v_w xv)) _ _ [mkO i b e c (Later l)] [] []);
    auto; cbn [s' lcells datas v_obj t_fam t_src]; rewrite ?app_nil_r; auto.
  - eexists. cbn [v_obj v_data]. split; [exact NEW|]. cbn [cell o_len lcells datas s'] in *. split; auto. split; auto.
    rewrite <- E4. unfold see. cbn [v_obj v_data v_w datas s']. rewrite (nth_objs _ _ _ _ NEW), (nth_objs _ _ _ _ E). reflexivity.
  - intros g [= <-]. destruct (I3 _ _ (a_t _ _ _ _ _ _ _ A)). lia.
  - intros j yv y u B. split; intros F; exfalso.
    + destruct (I3 _ _ (a_t _ _ _ _ _ _ _ B)). lia.
    + destruct (I4 _ _ _ _ B) as (o & G & _). apply nth_error_lt in G. lia.
  - intros j yv y u a b' k B Ea Eb. rewrite NEW in Ea. injection Ea as <-. cbn [o_len].
    destruct (I4 _ _ _ _ B) as (o & G1 & G2 & _).
    assert (o = b'). { cbn [objs s'] in Eb. rewrite nth_error_app1 in Eb by (eapply nth_error_lt; eauto). congruence. }
    subst o. split; [discriminate|]. split; [|discriminate]. intros [= <-] Kb. f_equal.
    apply (I5 _ _ _ _ _ _ _ _ A B). destruct (Nat.eq_dec (v_obj xv) (v_obj yv)) as [Q|Q]; auto. exfalso.
    apply (I6 _ _ _ _ _ _ _ _ _ _ l A B Q E G1 eq_refl Kb).
  - intros j yv y u a b' B Ea Eb. split.
    + intros [= F]. apply (I5 _ _ _ _ _ _ _ _ A B) in F. rewrite NEW in Ea. injection Ea as <-. exists l. split; auto.
      cbn [objs s'] in Eb. rewrite <- F, nth_error_app1, E in Eb by (eapply nth_error_lt; eauto). now injection Eb as <-.
    + intros F. exfalso. destruct (I3 _ _ (a_t _ _ _ _ _ _ _ B)) as [_ H]. specialize (H _ F). lia.
  - intros [= F]. destruct (I3 _ _ (a_t _ _ _ _ _ _ _ A)). lia.
Qed.

Lemma list_eqb_Z a : forall b, list_eqb Z.eqb a b = true -> a = b.
Proof.
  induction a as [|x a IH]; intros [|y b] H; cbn in H; try discriminate; auto.
  apply andb_true_iff in H as [H1 H2]. apply Z.eqb_eq in H1. subst. f_equal. auto.
Qed.

Lemma nth_error_spoil f ch pa ts i t : nth_error (spoil f ch pa ts) i = Some t -> t_ok t = true ->
  exists u, nth_error ts i = Some u /\ t_ok u = true /\ t_fam t = t_fam u /\
    (t_fam u = f /\ ch = false /\ t_src t = t_src u \/
     t_fam u <> f /\ t_src u = Some f /\ pa = false /\ t_src t = None \/
     t_fam u <> f /\ t_src u <> Some f /\ t = u).
Proof.
  unfold spoil. rewrite nth_error_map. destruct (nth_error ts i) as [u|]; [|discriminate]. intros E H. exists u.
  injection E as <-. split; auto. destruct (Nat.eqb_spec (t_fam u) f) as [F|F].
  - cbn [t_ok t_fam t_src] in *. apply andb_true_iff in H as [H1 H2]. apply negb_true_iff in H2. auto 6.
  - unfold is_src in *. destruct (t_src u) as [g|] eqn:S; [destruct (Nat.eqb_spec g f) as [G|G]|].
    + subst g. cbn [t_ok t_fam t_src] in *. apply andb_true_iff in H as [H1 H2]. apply negb_true_iff in H2. split; auto. split; auto. right. left. auto.
    + split; auto. split; auto. right. right. split; auto. split; auto. congruence.
    + split; auto. split; auto. right. right. split; auto. split; auto. congruence.
Qed.

Lemma spoil_length f ch pa ts : length (spoil f ch pa ts) = length ts.
Proof. apply map_length. Qed.

(** The object is given new lengths; its old lengths tensor has become [l1]. *)
Lemma write_inv (s : state V) xs ts v xv x t o l l1 l2 :
  Inv s xs ts -> at_ s xs ts v xv x t -> nth_error (objs s) (v_obj xv) = Some o -> o_len o = Own l ->
  Inv (set_lengths (put_cell s l l1) (v_obj xv) l2) xs
      (spoil (t_fam t) (negb (same_lens (lens (bm x)) l2)) (negb (same_lens (lens (bm x)) l1)) ts) /\
  exists o', nth_error (objs (set_lengths (put_cell s l l1) (v_obj xv) l2)) (v_obj xv) = Some o' /\
    o_ids o' = o_ids o /\ o_sos o' = o_sos o /\ o_eos o' = o_eos o /\ o_chs o' = o_chs o /\ o_len o' = Own (length (lcells s)) /\
    lcells (set_lengths (put_cell s l l1) (v_obj xv) l2) = list_set (lcells s) l l1 ++ [l2] /\
    (forall yv, v_obj yv <> v_obj xv ->
       nth_error (objs (set_lengths (put_cell s l l1) (v_obj xv) l2)) (v_obj yv) = nth_error (objs s) (v_obj yv)).
Proof.
  intros I A E K. pose proof I as [I1 I2 I3 I4 I5 I6 I7 I8]. destruct (I4 _ _ _ _ A) as (o0 & E1 & E2 & E3 & E4).
  assert (o0 = o) by congruence. subst o0. pose proof (nth_error_lt _ _ _ E) as LO.
  assert (L : (l < length (lcells s))%nat) by (unfold cell in E2; now rewrite K in E2).
  assert (LX : lens (bm x) = nth l (lcells s) []).
  { rewrite <- E4. unfold see. rewrite (nth_objs _ _ _ _ E). unfold meta_at. cbn [bm lens]. now rewrite K. }
  set (o' := mkO (o_ids o) (o_sos o) (o_eos o) (o_chs o) (Own (length (lcells s)))).
  assert (S' : set_lengths (put_cell s l l1) (v_obj xv) l2
               = mkS (list_set (lcells s) l l1 ++ [l2]) (list_set (objs s) (v_obj xv) o') (datas s) (vars s) (bufs s)).
  { unfold set_lengths, put_cell. cbn [objs lcells datas vars bufs]. rewrite E. subst o'. destruct o. cbn. now rewrite list_set_length. }
  rewrite S'. set (s' := mkS _ _ _ _ _).
  assert (SAME : nth_error (objs s') (v_obj xv) = Some o') by (cbn [objs s']; now apply nth_error_set_same).
  assert (OTHER : forall yv, v_obj yv <> v_obj xv -> nth_error (objs s') (v_obj yv) = nth_error (objs s) (v_obj yv))
    by (intros yv N; cbn [objs s']; apply nth_error_set_other; congruence).
  assert (BACK : forall i yv y u, at_ s' xs (spoil (t_fam t) (negb (same_lens (lens (bm x)) l2)) (negb (same_lens (lens (bm x)) l1)) ts) i yv y u ->
    exists u0, at_ s xs ts i yv y u0 /\ t_fam u = t_fam u0 /\
     (t_fam u0 = t_fam t /\ lens (bm x) = l2 /\ t_src u = t_src u0 \/
      t_fam u0 <> t_fam t /\ t_src u0 = Some (t_fam t) /\ lens (bm x) = l1 /\ t_src u = None \/
      t_fam u0 <> t_fam t /\ t_src u0 <> Some (t_fam t) /\ u = u0)).
  { intros i yv y u [B1 B2 B3 B4]. destruct (nth_error_spoil _ _ _ _ _ _ B3 B4) as (u0 & C1 & C2 & C3 & C4). exists u0.
    split; [split; auto|]. split; auto. destruct C4 as [(D1 & D2 & D3)|[(D1 & D2 & D3 & D4)|D]]; [left|right; left|right; right; auto].
    - split; auto. split; auto. apply list_eqb_Z. now apply negb_false_iff in D2.
    - split; auto. split; auto. split; auto. apply list_eqb_Z. now apply negb_false_iff in D3. }
  assert (CELL : forall i yv y u a, at_ s xs ts i yv y u -> nth_error (objs s) (v_obj yv) = Some a -> (cell a < length (lcells s))%nat).
  { intros i yv y u a B Ea. destruct (I4 _ _ _ _ B) as (o1 & G1 & G2 & _). congruence. }
  split.
  2:{ exists o'. cbn [o' o_ids o_sos o_eos o_chs o_len]. repeat (split; [auto|]). exact OTHER. }
  split.
  - now rewrite spoil_length.
  - now rewrite spoil_length.
  - intros i u Eu. rewrite spoil_length. unfold spoil in Eu. rewrite nth_error_map in Eu. destruct (nth_error ts i) as [u0|] eqn:Eu0; [|discriminate].
    cbn [option_map] in Eu. injection Eu as <-. destruct (I3 _ _ Eu0) as [D1 D2].
    destruct (Nat.eqb (t_fam u0) (t_fam t)); [|destruct (is_src (t_fam t) u0)]; cbn [t_fam t_src]; auto. split; auto. discriminate.
  - intros i yv y u B. apply BACK in B as (u0 & B0 & F & C). destruct (I4 _ _ _ _ B0) as (a & G1 & G2 & G3 & G4).
    destruct C as [(C1 & C2 & C3)|[(C1 & C2 & C3 & C4)|(C1 & C2 & C3)]].
    + assert (Q : v_obj yv = v_obj xv) by now apply (I5 _ _ _ _ _ _ _ _ B0 A).
      rewrite Q in G1. assert (a = o) by congruence. subst a. exists o'. rewrite Q. split; auto.
      split; [cbn [cell o' o_len s' lcells]; rewrite app_length, list_set_length; cbn; lia|]. split; auto.
      rewrite <- G4. apply (see_ext s s' yv o o'); rewrite ?Q; auto. cbn [cell o' o_len s' lcells].
      rewrite <- (list_set_length (lcells s) l l1), nth_app_new, <- C2, LX. unfold cell. now rewrite K.
    + assert (Q : v_obj yv <> v_obj xv) by (intros Q; apply C1; now apply (I5 _ _ _ _ _ _ _ _ B0 A)).
      exists a. rewrite OTHER by auto. split; auto. split; [cbn [s' lcells]; rewrite app_length, list_set_length; lia|]. split; auto.
      rewrite <- G4. apply (see_ext s s' yv a a); auto; [now rewrite OTHER|]. cbn [s' lcells].
      rewrite nth_app_l by now rewrite list_set_length. destruct (Nat.eq_dec (cell a) l) as [W|W].
      * rewrite W, nth_set_same, <- C3; auto.
      * apply nth_set_other. congruence.
    + assert (Q : v_obj yv <> v_obj xv) by (intros Q; apply C1; now apply (I5 _ _ _ _ _ _ _ _ B0 A)).
      exists a. rewrite OTHER by auto. split; auto. split; [cbn [s' lcells]; rewrite app_length, list_set_length; lia|]. split; auto.
      rewrite <- G4. apply (see_ext s s' yv a a); auto; [now rewrite OTHER|]. cbn [s' lcells].
      rewrite nth_app_l by now rewrite list_set_length. apply nth_set_other. intros W.
      unfold cell in W. destruct (o_len a) as [k|k] eqn:Ka; subst k.
      * exact (I6 _ _ _ _ _ _ _ _ _ _ l A B0 (not_eq_sym Q) E G1 K Ka).
      * apply C2. exact (I7 _ _ _ _ _ _ _ _ _ _ l B0 A G1 E Ka K).
  - intros i yv y u j zv z w B C. apply BACK in B as (u0 & B0 & F & _). apply BACK in C as (w0 & C0 & F' & _).
    rewrite F, F'. eapply I5; eauto.
  - intros i yv y u j zv z w a b k B C N Ea Eb Ka Kb. apply BACK in B as (u0 & B0 & F & _). apply BACK in C as (w0 & C0 & F' & _).
    destruct (Nat.eq_dec (v_obj yv) (v_obj xv)) as [Q|Q]; [|destruct (Nat.eq_dec (v_obj zv) (v_obj xv)) as [Q'|Q']].
    + rewrite OTHER in Eb by congruence. rewrite Q, SAME in Ea. injection Ea as <-. cbn in Ka. injection Ka as <-.
      pose proof (CELL _ _ _ _ _ C0 Eb) as M. unfold cell in M. rewrite Kb in M. lia.
    + rewrite OTHER in Ea by congruence. rewrite Q', SAME in Eb. injection Eb as <-. cbn in Kb. injection Kb as <-.
      pose proof (CELL _ _ _ _ _ B0 Ea) as M. unfold cell in M. rewrite Ka in M. lia.
    + rewrite OTHER in Ea, Eb by auto. exact (I6 _ _ _ _ _ _ _ _ _ _ _ B0 C0 N Ea Eb Ka Kb).
  - intros i yv y u j zv z w a b k B C Ea Eb Ka Kb. apply BACK in B as (u0 & B0 & F & FB). apply BACK in C as (w0 & C0 & F' & _).
    destruct (Nat.eq_dec (v_obj yv) (v_obj xv)) as [Q|Q]; [rewrite Q, SAME in Ea; injection Ea as <-; discriminate|].
    rewrite OTHER in Ea by auto. destruct (Nat.eq_dec (v_obj zv) (v_obj xv)) as [Q'|Q'].
    { exfalso. rewrite Q', SAME in Eb. injection Eb as <-. cbn in Kb. injection Kb as <-.
      pose proof (CELL _ _ _ _ _ B0 Ea) as M. unfold cell in M. rewrite Ka in M. lia. }
    rewrite OTHER in Eb by auto. pose proof (I7 _ _ _ _ _ _ _ _ _ _ _ B0 C0 Ea Eb Ka Kb) as H.
    assert (NF : t_fam u0 <> t_fam t) by (intros X; apply Q; now apply (I5 _ _ _ _ _ _ _ _ B0 A)).
    assert (NF' : t_fam w0 <> t_fam t) by (intros X; apply Q'; now apply (I5 _ _ _ _ _ _ _ _ C0 A)).
    destruct FB as [(C1 & _)|[(C1 & C2 & _)|(C1 & C2 & ->)]]; try contradiction; congruence.
  - intros i yv y u j zv z w B C Es. apply BACK in B as (u0 & B0 & F & FB). apply BACK in C as (w0 & C0 & F' & _). rewrite F' in Es.
    destruct FB as [(C1 & _ & C3)|[(_ & _ & _ & C3)|(C1 & C2 & ->)]].
    + exfalso. rewrite C3 in Es. destruct (I8 _ _ _ _ _ _ _ _ B0 C0 Es) as (a & b & q & G1 & G2 & G3 & G4).
      apply (I5 _ _ _ _ _ _ _ _ B0 A) in C1. rewrite C1 in G1. congruence.
    + congruence.
    + destruct (I8 _ _ _ _ _ _ _ _ B0 C0 Es) as (a & b & q & G1 & G2 & G3 & G4). exists a, b, q. rewrite !OTHER; auto.
      * intros Q. apply C2. rewrite Es. f_equal. now apply (I5 _ _ _ _ _ _ _ _ C0 A).
      * intros Q. apply C1. now apply (I5 _ _ _ _ _ _ _ _ B0 A).
Qed.

Lemma rolled_same (c : conv_cfg V) x : ok_module c -> in_place c x = true -> rolled c x = bd x.
Proof.
  intros O P. unfold rolled. destruct (0 <? padn c)%nat eqn:Z; [|reflexivity].
  assert (AS : all_starting (bm x) = true).
  { destruct O as [O|O]; [|rewrite O in Z; discriminate]. unfold in_place in P. apply orb_true_iff in P as [P|P]; auto. lia. }
  assert (W : all_starting (with_lens (bm x) (pad_lens (Z.of_nat (padn c)) (bm x))) = true) by exact AS.
  rewrite W. now rewrite !andb_false_r.
Qed.

Lemma put_cell_same (s : state V) l : put_cell s l (nth l (lcells s) []) = s.
Proof. unfold put_cell. rewrite list_set_nth. now destruct s. Qed.

Lemma put_data_same (s : state V) d : put_data s d (nth d (datas s) []) = s.
Proof. unfold put_data. rewrite list_set_nth. now destruct s. Qed.

Lemma tag_ok ts v : t_ok (tag_of ts v) = true -> nth_error ts v = Some (tag_of ts v).
Proof.
  unfold tag_of. intros H. destruct (nth_error ts v) as [t|] eqn:E; [now rewrite (nth_error_nth _ _ _ E)|].
  apply nth_error_None in E. rewrite nth_overflow in H by auto. discriminate.
Qed.

Lemma get_at (s : state V) xs ts v : Inv s xs ts -> t_ok (tag_of ts v) = true ->
  exists xv x, at_ s xs ts v xv x (tag_of ts v) /\ nth_error (vars s) v = Some xv /\ get xs v = Ok x.
Proof.
  intros [I1 I2 _ _ _ _ _ _] H. pose proof (tag_ok _ _ H) as E. pose proof (nth_error_lt _ _ _ E) as L.
  destruct (nth_error (vars s) v) as [xv|] eqn:E1; [|apply nth_error_None in E1; lia].
  destruct (nth_error xs v) as [x|] eqn:E2; [|apply nth_error_None in E2; lia].
  exists xv, x. unfold get. rewrite E2. split; [split; auto|auto].
Qed.

Lemma see_at (s : state V) xs ts v xv x t : Inv s xs ts -> at_ s xs ts v xv x t -> see s xv = x.
Proof. intros I A. destruct (I_see _ _ _ I _ _ _ _ A) as (o & _ & _ & _ & E). exact E. Qed.

Lemma in_place_pre (c : conv_cfg V) st x : in_place c x = true -> pre_hook c st x = Ok x.
Proof.
  unfold in_place, pre_hook. intros H. replace ((1 <? kernel_width c) && negb (all_starting (bm x))) with false; auto.
  destruct (all_starting (bm x)); [now rewrite andb_false_r|]. lia.
Qed.

Lemma not_in_place (c : conv_cfg V) x : (1 <? kernel_width c) && negb (all_starting (bm x)) = negb (in_place c x).
Proof. unfold in_place. destruct (all_starting (bm x)); [rewrite orb_true_r, andb_false_r; reflexivity|]. lia. Qed.

Lemma conv1d_meta (c : conv_cfg V) x y tmp : conv1d c x = Ok (y, tmp) ->
  ids (bm y) = ids (bm x) /\ sos (bm y) = sos (bm x) /\ eos (bm y) = eos (bm x) /\ chs (bm y) = chs (bm x).
Proof.
  unfold conv1d. set (m1 := if (0 <? padn c)%nat then _ else _).
  assert (M : ids m1 = ids (bm x) /\ sos m1 = sos (bm x) /\ eos m1 = eos (bm x) /\ chs m1 = chs (bm x)).
  { subst m1. destruct (0 <? padn c)%nat; auto. }
  clearbody m1. destruct (if (0 <? padn c)%nat && negb (all_starting_and_ending m1) then _ else _) as [[[w1 r1] np]|]; [|discriminate].
  cbn [bind]. destruct (temp_buffer c m1 _ r1); [|discriminate]. cbn [bind].
  destruct (torch_conv1d c np w1 r1) as [[wo out]|]; [|discriminate]. cbn [bind].
  destruct (sequence_mask _ _ _); [|discriminate]. cbn [bind]. intros [= <- <-]. exact M.
Qed.

(** A convolution on an object that has been built. *)
Lemma conv_inv (s : state V) xs ts v xv x t o l c k y tmp :
  Inv s xs ts -> at_ s xs ts v xv x t -> t_src t = None -> nth_error (objs s) (v_obj xv) = Some o -> o_len o = Own l ->
  ok_module c -> in_place c x = true -> conv1d c x = Ok (y, tmp) ->
  Inv (put_buf (bind_var (set_lengths (put_data (if (0 <? padn c)%nat then put_cell s l (pad_lens (Z.of_nat (padn c)) (bm x)) else s)
                 (v_data xv) (rolled c x)) (v_obj xv) (lens (bm y))) (v_obj xv) (bw y) (bd y))
         k (post_hook (nth k (bufs s) no_buffers) (bm y) tmp)) (xs ++ [y])
      (spoil (t_fam t) (negb (same_lens (lens (bm x)) (lens (bm y))))
         ((0 <? padn c)%nat && negb (same_lens (lens (bm x)) (pad_lens (Z.of_nat (padn c)) (bm x)))) ts ++ [mkTag (t_fam t) None true]).
Proof.
  intros I A TS E K OM IP EC. pose proof (see_at _ _ _ _ _ _ _ I A) as SX.
  rewrite (rolled_same c x OM IP).
  assert (DX : bd x = nth (v_data xv) (datas s) []) by (rewrite <- SX; reflexivity).
  assert (LX : lens (bm x) = nth l (lcells s) []).
  { rewrite <- SX. unfold see. rewrite (nth_objs _ _ _ _ E). unfold meta_at. cbn [bm lens]. now rewrite K. }
  set (l1 := if (0 <? padn c)%nat then pad_lens (Z.of_nat (padn c)) (bm x) else lens (bm x)).
  assert (SL : forall a, same_lens a a = true) by (intros a; unfold same_lens; induction a as [|z a IH]; cbn; auto; now rewrite Z.eqb_refl).
  assert (P1 : (if (0 <? padn c)%nat then put_cell s l (pad_lens (Z.of_nat (padn c)) (bm x)) else s) = put_cell s l l1).
  { subst l1. destruct (0 <? padn c)%nat; auto. now rewrite LX, put_cell_same. }
  assert (P2 : ((0 <? padn c)%nat && negb (same_lens (lens (bm x)) (pad_lens (Z.of_nat (padn c)) (bm x)))) = negb (same_lens (lens (bm x)) l1)).
  { subst l1. destruct (0 <? padn c)%nat; auto. now rewrite SL. }
  rewrite P1, P2. clearbody l1.
  assert (P3 : put_data (put_cell s l l1) (v_data xv) (bd x) = put_cell s l l1).
  { rewrite DX. apply (put_data_same (put_cell s l l1)). }
  rewrite P3. clear P1 P2 P3.
  destruct (write_inv s xs ts v xv x t o l l1 (lens (bm y)) I A E K) as [J (o' & J1 & J2 & J3 & J4 & J5 & J6 & J7 & J8)].
  destruct (I_see _ _ _ I _ _ _ _ A) as (o0 & G1 & G2 & G3 & G4). assert (o0 = o) by congruence. subst o0.
  destruct (conv1d_meta _ _ _ _ EC) as (M1 & M2 & M3 & M4).
  set (s2 := set_lengths (put_cell s l l1) (v_obj xv) (lens (bm y))) in *.
  assert (DS : datas s2 = datas s).
  { unfold s2, set_lengths, put_cell. cbn [objs]. rewrite E. now destruct o. }
  assert (VS : vars s2 = vars s).
  { unfold s2, set_lengths, put_cell. cbn [objs]. rewrite E. now destruct o. }
  clearbody s2.
  assert (BACK : forall j yv z u, at_ s2 xs (spoil (t_fam t) (negb (same_lens (lens (bm x)) (lens (bm y)))) (negb (same_lens (lens (bm x)) l1)) ts) j yv z u ->
            exists u0, at_ s xs ts j yv z u0 /\ t_fam u = t_fam u0 /\ t_src u <> Some (t_fam t)).
  { intros j yv z u [B1 B2 B3 B4]. destruct (nth_error_spoil _ _ _ _ _ _ B3 B4) as (u0 & C1 & C2 & C3 & C4). exists u0. rewrite VS in B1.
    assert (B0 : at_ s xs ts j yv z u0) by (split; auto). split; auto. split; auto.
    destruct C4 as [(D1 & _ & D3)|[(_ & _ & _ & D3)|(_ & D2 & ->)]]; auto; [|congruence]. rewrite D3. intros X.
    destruct (I_src _ _ _ I _ _ _ _ _ _ _ _ B0 A X) as (a & b & q & O1 & O2 & O3 & O4).
    apply (I_fam _ _ _ I _ _ _ _ _ _ _ _ B0 A) in D1. rewrite D1 in O1. congruence. }
  apply (add_var s2 _ xs _ (mkV (v_obj xv) (length (datas s2)) (bw y)) y (mkTag (t_fam t) None true) [] [] [bd y]);
    auto; cbn [objs lcells datas vars bind_var put_buf v_obj t_fam t_src]; rewrite ?app_nil_r; auto.
  - exists o'. cbn [objs lcells datas vars bind_var put_buf v_obj v_data]. split; auto. unfold cell. rewrite J6, J7, !app_length, list_set_length.
    cbn [length]. split; [lia|]. split; [lia|]. unfold see. cbn [objs lcells datas vars bind_var put_buf v_obj v_data v_w].
    rewrite nth_app_new, (nth_error_nth _ _ _ J1). unfold meta_at. cbn [lcells bind_var put_buf]. rewrite J6, J7, J2, J3, J4, J5.
    rewrite <- (list_set_length (lcells s) l l1), nth_app_new.
    assert (H : bm x = meta_at s o) by (rewrite <- SX; unfold see; cbn [bm]; now rewrite (nth_objs _ _ _ _ E)).
    rewrite H in M1, M2, M3, M4. unfold meta_at in M1, M2, M3, M4. cbn [ids sos eos chs] in *.
    destruct y as [w r [i b e q ch]]. cbn in *. now subst.
  - rewrite spoil_length. destruct (I_bound _ _ _ I _ _ (a_t _ _ _ _ _ _ _ A)). lia.
  - discriminate.
  - intros j yv z u B. apply BACK in B as (u0 & B0 & F & _). rewrite F. apply (I_fam _ _ _ I _ _ _ _ _ _ _ _ A B0).
  - intros j yv z u a b q B Ea Eb. rewrite J1 in Ea. injection Ea as <-. rewrite J6.
    pose proof B as B'. apply BACK in B' as (u0 & B0 & F & _).
    destruct (I_see _ _ _ I _ _ _ _ B0) as (ob & O1 & O2 & _).
    split; [|split; [discriminate|]].
    + intros N [= <-] Kb. rewrite (J8 yv) in Eb by congruence. assert (b = ob) by congruence. subst ob. unfold cell in O2. rewrite Kb in O2. lia.
    + intros [= <-] Kb. destruct (Nat.eq_dec (v_obj yv) (v_obj xv)) as [Q|Q].
      * rewrite Q, J1 in Eb. injection Eb as <-. congruence.
      * rewrite (J8 yv) in Eb by congruence. assert (b = ob) by congruence. subst ob. unfold cell in O2. rewrite Kb in O2. lia.
  - intros j yv z u a b B Ea Eb. split; [discriminate|]. intros X. apply BACK in B as (u0 & B0 & F & N). contradiction.
  - discriminate.
Qed.

Lemma inv_bufs (s : state V) xs ts k b : Inv s xs ts -> Inv (put_buf s k b) xs ts.
Proof.
  intros [I1 I2 I3 I4 I5 I6 I7 I8].
  assert (AT : forall i xv x t, at_ (put_buf s k b) xs ts i xv x t -> at_ s xs ts i xv x t) by (intros i xv x t []; split; auto).
  split; auto.
  - intros i xv x t A. destruct (I4 _ _ _ _ (AT _ _ _ _ A)) as (o & H). exists o. exact H.
  - intros i xv x t j yv y u A B. eapply I5; eapply AT; eassumption.
  - intros i xv x t j yv y u a c q A B. eapply I6; eapply AT; eassumption.
  - intros i xv x t j yv y u a c q A B. eapply I7; eapply AT; eassumption.
  - intros i xv x t j yv y u A B. eapply I8; eapply AT; eassumption.
Qed.

Lemma step_ok (ms : list (conv_cfg V)) (s : state V) xs ts i :
  Forall ok_module ms -> Inv s xs ts -> Forall (fun v => t_ok (tag_of ts v) = true) (uses i) ->
  match vstep ms (xs, bufs s) i with
  | Ok (xs', sts') => exists s', step ms s i = (Ok tt, s') /\ Inv s' xs' (tag_step ms (xs, bufs s) ts i) /\ bufs s' = sts'
  | Err e => fst (step ms s i) = Err e
  end.
Proof.
  intros OM I U. destruct i as [g v|v|v|k v|f v w]; cbn [uses] in U; cbn [vstep tag_step step].
  - inversion_clear U as [|? ? U1 _]. destruct (get_at _ _ _ _ I U1) as (xv & x & A & E1 & E2). rewrite E1, E2. cbn [bind].
    eexists. split; [reflexivity|]. split; [|reflexivity]. pose proof (see_at _ _ _ _ _ _ _ I A) as SX.
    unfold map_call. rewrite SX.
    replace (v_w xv) with (bw x) by (rewrite <- SX; reflexivity). now apply (share_inv s xs ts v).
  - inversion_clear U as [|? ? U1 _]. destruct (get_at _ _ _ _ I U1) as (xv & x & A & E1 & E2). rewrite E1, E2. cbn [bind].
    destruct (touch_inv _ _ _ _ _ _ _ I A) as (J & Jv & Jb & o & l & J1 & J2).
    destruct (at_settled s (touch s (v_obj xv)) xs ts (t_fam (tag_of ts v)) v xv x _ Jv A) as (u & A' & Fu & _).
    rewrite J1. destruct o as [oi ob oe oc ol]. cbn [o_len] in J2. subst ol. eexists. split; [reflexivity|]. split; [|exact Jb].
    pose proof (view_inv _ _ _ _ _ _ _ _ _ _ _ _ J A' J1) as K. rewrite settle_length, Fu in K. exact K.
  - inversion_clear U as [|? ? U1 _]. destruct (get_at _ _ _ _ I U1) as (xv & x & A & E1 & E2). rewrite E1, E2. cbn [bind].
    destruct (touch_inv _ _ _ _ _ _ _ I A) as (J & Jv & Jb & _). eexists. split; [reflexivity|]. auto.
  - inversion_clear U as [|? ? U1 _]. destruct (get_at _ _ _ _ I U1) as (xv & x & A & E1 & E2). cbn [fst snd]. rewrite E1, E2. cbn [bind].
    unfold get. destruct (nth_error ms k) as [c|] eqn:Ek; cbn [bind]; [|reflexivity].
    assert (OC : ok_module c) by (rewrite Forall_forall in OM; apply OM; eapply nth_error_In; eauto).
    destruct (touch_inv _ _ _ _ _ _ _ I A) as (J & Jv & Jb & o & l & J1 & J2).
    destruct (at_settled s (touch s (v_obj xv)) xs ts (t_fam (tag_of ts v)) v xv x _ Jv A) as (u & A' & Fu & Su). specialize (Su eq_refl).
    unfold conv_stmt. rewrite (see_at _ _ _ _ _ _ _ J A'), not_in_place, Jb. destruct (in_place c x) eqn:IP; cbn [negb].
    + rewrite (nth_objs _ _ _ _ J1), J2. unfold conv_call. rewrite (in_place_pre c _ x IP). cbn [bind].
      destruct (conv1d c x) as [[y tmp]|e] eqn:EC; cbn [bind]; [|reflexivity].
      eexists. split; [reflexivity|]. split.
      * pose proof (conv_inv _ _ _ _ _ _ _ _ _ _ k _ _ J A' Su J1 J2 OC IP EC) as K. rewrite Fu, Jb in K. exact K.
      * set (s3 := put_data _ _ _). assert (B3 : bufs s3 = bufs s) by (subst s3; destruct (0 <? padn c)%nat; exact Jb).
        unfold put_buf, bind_var, set_lengths. cbn [bufs]. destruct (nth_error (objs s3) (v_obj xv)) as [[]|]; cbn [bufs]; now rewrite B3.
    + destruct (conv_call c (nth k (bufs s) no_buffers) x) as [[y st]|e]; cbn [bind]; [|reflexivity].
      eexists. split; [reflexivity|]. split.
      * apply inv_bufs. pose proof (new_inv _ _ _ y J) as K. rewrite settle_length in K. exact K.
      * unfold put_buf, bind_new. cbn [bufs]. now rewrite Jb.
  - inversion_clear U as [|? ? U1 U']. inversion_clear U' as [|? ? U2 _].
    destruct (get_at _ _ _ _ I U1) as (xv & x & A & E1 & E2). destruct (get_at _ _ _ _ I U2) as (yv & y & B & E3 & E4).
    rewrite E1, E2, E3, E4. cbn [bind]. unfold zip_stmt, zip_values. cbn zeta.
    pose proof (see_at _ _ _ _ _ _ _ I A) as SX. pose proof (see_at _ _ _ _ _ _ _ I B) as SY. rewrite SX, SY.
    replace (v_w xv) with (bw x) by (rewrite <- SX; reflexivity). replace (v_w yv) with (bw y) by (rewrite <- SY; reflexivity).
    destruct (negb (Nat.eqb (bw x) (bw y) && Nat.eqb (length (bd x)) (length (bd y)))); cbn [bind]; [reflexivity|].
    destruct (touch_inv _ _ _ _ _ _ _ I B) as (J & Jv & Jb & _).
    destruct (at_settled s (touch s (v_obj yv)) xs ts (t_fam (tag_of ts w)) v xv x _ Jv A) as (ux & Ax & Fx & _).
    destruct (at_settled s (touch s (v_obj yv)) xs ts (t_fam (tag_of ts w)) w yv y _ Jv B) as (uy & By & Fy & _).
    destruct (touch_inv _ _ _ _ _ _ _ J Ax) as (J' & Jv' & Jb' & _). rewrite Fx in J'.
    destruct (at_settled (touch s (v_obj yv)) (touch (touch s (v_obj yv)) (v_obj xv)) xs _ (t_fam (tag_of ts v)) v xv x _ Jv' Ax) as (ux' & Ax' & _).
    destruct (at_settled (touch s (v_obj yv)) (touch (touch s (v_obj yv)) (v_obj xv)) xs _ (t_fam (tag_of ts v)) w yv y _ Jv' By) as (uy' & By' & _).
    rewrite (see_at _ _ _ _ _ _ _ J' Ax'), (see_at _ _ _ _ _ _ _ J' By').
    destruct (meta_eq (bm y) (bm x)) as [[]|e]; cbn [bind]; [|reflexivity|reflexivity].
    eexists. split; [reflexivity|]. split; [|cbn [bufs bind_var]; congruence].
    assert (ux' = tag_of (settle (t_fam (tag_of ts v)) (settle (t_fam (tag_of ts w)) ts)) v).
    { unfold tag_of at 1. symmetry. apply nth_error_nth. apply (a_t _ _ _ _ _ _ _ Ax'). }
    subst ux'. now apply (share_inv _ xs _ v).
Qed.

Lemma run_ok (ms : list (conv_cfg V)) : forall p (s : state V) xs ts,
  Forall ok_module ms -> Inv s xs ts -> careful ms (xs, bufs s) ts p ->
  match vrun ms (xs, bufs s) p with
  | Ok (xs', sts') => exists s', run ms s p = (Ok tt, s') /\ Inv s' xs' (tags ms (xs, bufs s) ts p) /\ bufs s' = sts'
  | Err e => fst (run ms s p) = Err e
  end.
Proof.
  induction p as [|i p IH]; intros s xs ts OM I C; cbn [vrun run tags].
  - exists s. auto.
  - destruct C as [C1 C2]. pose proof (step_ok ms s xs ts i OM I C1) as H.
    destruct (vstep ms (xs, bufs s) i) as [[xs1 sts1]|e] eqn:E; cbn [bind].
    + destruct H as (s1 & R & J & <-). rewrite R. apply IH; auto.
    + destruct (step ms s i) as [r s1]. cbn [fst] in H. subst r. reflexivity.
Qed.

Lemma inputs_inv_gen : forall xs (s : state V) xs0 ts, Inv s xs0 ts ->
  Inv (fold_left (fun s x => bind_new s (bm x) (bw x) (bd x)) xs s) (xs0 ++ xs)
      (ts ++ map (fun n => mkTag n None true) (seq (length ts) (length xs))) /\
  bufs (fold_left (fun s x => bind_new s (bm x) (bw x) (bd x)) xs s) = bufs s.
Proof.
  induction xs as [|x xs IH]; intros s xs0 ts I; cbn [fold_left seq length map].
  - now rewrite !app_nil_r.
  - pose proof (new_inv s xs0 ts x I) as J. destruct (IH _ _ _ J) as [K KB]. rewrite app_length in K. cbn [length] in K. rewrite Nat.add_1_r in K.
    rewrite <- !app_assoc in K. cbn [app] in K. split; auto.
Qed.

Lemma inputs_inv (sts : list (buffers V)) xs : Inv (inputs sts xs) xs (first_tags xs) /\ bufs (inputs sts xs) = sts.
Proof.
  unfold inputs, first_tags. apply (inputs_inv_gen xs (mkS [] [] [] [] sts) [] []).
  split; auto; cbn.
  - intros i t E. destruct i; discriminate.
  - intros i xv x t []. destruct i; discriminate.
  - intros i xv x t j yv y u []. destruct i; discriminate.
  - intros i xv x t j yv y u a b k []. destruct i; discriminate.
  - intros i xv x t j yv y u a b k []. destruct i; discriminate.
  - intros i xv x t j yv y u []. destruct i; discriminate.
Qed.

(** Careful programs compute what they compute with values. *)
Theorem careful_run (ms : list (conv_cfg V)) sts xs p : Forall ok_module ms -> careful ms (xs, sts) (first_tags xs) p ->
  match vrun ms (xs, sts) p with
  | Ok (xs', sts') => exists s', run ms (inputs sts xs) p = (Ok tt, s') /\ bufs s' = sts' /\ length (vars s') = length xs' /\
      forall v xv x, t_ok (tag_of (tags ms (xs, sts) (first_tags xs) p) v) = true ->
        nth_error (vars s') v = Some xv -> nth_error xs' v = Some x -> see s' xv = x
  | Err e => fst (run ms (inputs sts xs) p) = Err e
  end.
Proof.
  intros OM C. destruct (inputs_inv sts xs) as [I B]. pose proof (run_ok ms p (inputs sts xs) xs (first_tags xs) OM I) as H.
  rewrite B in H. specialize (H C). destruct (vrun ms (xs, sts) p) as [[xs' sts']|e]; auto.
  destruct H as (s' & R & J & BS). exists s'. split; auto. split; auto. split; [rewrite (I_vars _ _ _ J), (I_xs _ _ _ J); auto|].
  intros v xv x O E1 E2. apply (see_at s' xs' (tags ms (xs, sts) (first_tags xs) p) v xv x (tag_of (tags ms (xs, sts) (first_tags xs) p) v) J). split; [exact E1|exact E2|exact (tag_ok _ _ O)|exact O].
Qed.

Lemma same_lens_refl l : same_lens l l = true.
Proof. unfold same_lens. induction l as [|z l IH]; cbn; auto. now rewrite Z.eqb_refl. Qed.

(** A convolution spoils exactly the variables that the rule names. *)
Lemma conv_exact (ms : list (conv_cfg V)) (s : state V) xs ts k v s' u uv x tu :
  Forall ok_module ms -> Inv s xs ts -> t_ok (tag_of ts v) = true -> step ms s (Conv k v) = (Ok tt, s') ->
  at_ s xs ts u uv x tu -> see s' uv = x -> t_ok (tag_of (tag_step ms (xs, bufs s) ts (Conv k v)) u) = true.
Proof.
  intros OM I U1 R B SE. cbn [tag_step step] in *. destruct (get_at _ _ _ _ I U1) as (xv & xx & A & E1 & E2). cbn [fst snd]. rewrite E1 in R. rewrite E2.
  unfold get. destruct (nth_error ms k) as [c|] eqn:Ek; [|discriminate].
  assert (OC : ok_module c) by (rewrite Forall_forall in OM; apply OM; eapply nth_error_In; eauto).
  destruct (touch_inv _ _ _ _ _ _ _ I A) as (J & Jv & Jb & o & l & J1 & J2).
  destruct (at_settled s (touch s (v_obj xv)) xs ts (t_fam (tag_of ts v)) v xv xx _ Jv A) as (tv & A' & Fu & Su). specialize (Su eq_refl).
  destruct (at_settled s (touch s (v_obj xv)) xs ts (t_fam (tag_of ts v)) u uv x _ Jv B) as (t1 & B' & Fb & _).
  unfold conv_stmt in R. rewrite (see_at _ _ _ _ _ _ _ J A'), not_in_place, Jb in R. set (f := t_fam (tag_of ts v)) in *.
  assert (LU : (u < length (settle f ts))%nat) by (eapply nth_error_lt, (a_t _ _ _ _ _ _ _ B')).
  assert (TU : tag_of (settle f ts) u = t1) by (apply nth_error_nth, (a_t _ _ _ _ _ _ _ B')).
  destruct (in_place c xx) eqn:IP; cbn [negb] in R.
  2:{ destruct (conv_call c (nth k (bufs s) no_buffers) xx) as [[y st]|e]; [|discriminate]. unfold tag_of in *. rewrite app_nth1, TU by auto.
      apply (a_ok _ _ _ _ _ _ _ B'). }
  rewrite (nth_objs _ _ _ _ J1), J2 in R. unfold conv_call. rewrite (in_place_pre c _ xx IP). cbn [bind].
  destruct (conv1d c xx) as [[y tmp]|e]; [|discriminate]. cbn [bind]. injection R as <-.
  set (st1 := touch s (v_obj xv)) in *.
  assert (LX : lens (bm xx) = nth l (lcells st1) []).
  { rewrite <- (see_at _ _ _ _ _ _ _ J A'). unfold see. rewrite (nth_objs _ _ _ _ J1). unfold meta_at. cbn [bm lens]. now rewrite J2. }
  set (l1 := if (0 <? padn c)%nat then pad_lens (Z.of_nat (padn c)) (bm xx) else lens (bm xx)).
  assert (P1 : (if (0 <? padn c)%nat then put_cell st1 l (pad_lens (Z.of_nat (padn c)) (bm xx)) else st1) = put_cell st1 l l1).
  { subst l1. destruct (0 <? padn c)%nat; auto. now rewrite LX, put_cell_same. }
  assert (P2 : ((0 <? padn c)%nat && negb (same_lens (lens (bm xx)) (pad_lens (Z.of_nat (padn c)) (bm xx)))) = negb (same_lens (lens (bm xx)) l1)).
  { subst l1. destruct (0 <? padn c)%nat; auto. now rewrite same_lens_refl. }
  rewrite P1 in SE. rewrite P2. clearbody l1. clear P1 P2.
  assert (LL : (l < length (lcells st1))%nat).
  { destruct (I_see _ _ _ J _ _ _ _ A') as (o1 & G1 & G2 & _). assert (o1 = o) by congruence. subst o1. unfold cell in G2. now rewrite J2 in G2. }
  destruct (I_see _ _ _ J _ _ _ _ B') as (ou & G1 & G2 & G3 & G4).
  pose proof (f_equal (fun q => lens (bm q)) G4) as G5. unfold see in G5. rewrite (nth_objs _ _ _ _ G1) in G5. cbn [bm meta_at lens] in G5.
  pose proof (f_equal (fun q => lens (bm q)) SE) as SE'. unfold see in SE'. cbn [bm] in SE'.
  unfold tag_of. rewrite app_nth1 by (rewrite spoil_length; auto). unfold spoil.
  set (g := fun t : tag => _).
  assert (NTH : nth_error (map g (settle f ts)) u = Some (g t1)) by (rewrite nth_error_map, (a_t _ _ _ _ _ _ _ B'); reflexivity).
  rewrite (nth_error_nth _ _ _ NTH). subst g. cbn beta. rewrite Fb.
  destruct (Nat.eqb_spec (t_fam tu) f) as [F|F]; cbn [t_ok].
  - rewrite (a_ok _ _ _ _ _ _ _ B'). cbn [andb]. rewrite negb_involutive.
    assert (Q : v_obj uv = v_obj xv). { apply (I_fam _ _ _ J _ _ _ _ _ _ _ _ B' A'). now rewrite Fb, Fu. }
    rewrite Q in G1, SE'. assert (ou = o) by congruence. subst ou.
    replace (lens (bm xx)) with (lens (bm y)); [apply same_lens_refl|].
    rewrite LX, <- SE' in *. rewrite J2 in G5. cbn [bm] in G5. transitivity (lens (bm x)); [|congruence]. rewrite <- SE'.
    unfold set_lengths, put_data, put_cell. cbn [objs lcells]. rewrite J1. destruct o as [oi ob oe oc ol]. cbn [bind_var put_buf objs lcells].
    rewrite (nth_error_nth (list_set (objs st1) (v_obj xv) _) _ _ (nth_error_set_same _ _ _ (nth_error_lt _ _ _ J1))). cbn [meta_at o_len lens lcells].
    unfold bind_var, put_buf. cbn [lcells]. now rewrite nth_app_new.
  - destruct (is_src f t1) eqn:IS; [|apply (a_ok _ _ _ _ _ _ _ B')]. cbn [t_ok]. rewrite (a_ok _ _ _ _ _ _ _ B'). cbn [andb]. rewrite negb_involutive.
    unfold is_src in IS. destruct (t_src t1) as [g|] eqn:S1; [|discriminate]. apply Nat.eqb_eq in IS. subst g.
    destruct (I_src _ _ _ J _ _ _ _ _ _ _ _ B' A' ltac:(now rewrite S1, Fu)) as (a & b & q & H1 & H2 & H3 & H4).
    assert (b = o) by congruence. subst b. assert (q = l) by congruence. subst q. assert (ou = a) by congruence. subst a.
    assert (Q : v_obj uv <> v_obj xv) by (intros Q; rewrite Q in H1; congruence).
    replace (lens (bm xx)) with l1; [apply same_lens_refl|].
    rewrite LX. rewrite H3 in G5. cbn [bm] in G5. transitivity (lens (bm x)); [|congruence]. rewrite <- SE'.
    unfold set_lengths, put_data, put_cell. cbn [objs lcells]. rewrite J1. destruct o as [oi ob oe oc ol]. cbn [bind_var put_buf objs lcells].
    assert (N2 : nth_error (list_set (objs st1) (v_obj xv) (mkO oi ob oe oc (Own (length (list_set (lcells st1) l l1))))) (v_obj uv) = Some ou)
      by (rewrite nth_error_set_other; auto).
    rewrite (nth_error_nth _ _ _ N2). unfold meta_at. cbn [lens]. rewrite H3. unfold bind_var, put_buf. cbn [lcells].
    rewrite nth_app_l by now rewrite list_set_length. now rewrite nth_set_same.
Qed.

Lemma careful_app (ms : list (conv_cfg V)) i : forall p s ts s1, careful ms s ts (p ++ [i]) -> vrun ms s p = Ok s1 ->
  careful ms s ts p /\ Forall (fun v => t_ok (tag_of (tags ms s ts p) v) = true) (uses i).
Proof.
  induction p as [|j p IH]; intros s ts s1 C R; cbn [app careful tags vrun] in *.
  - split; auto. apply C.
  - destruct C as [C1 C2]. destruct (vstep ms s j) as [s2|]; [|discriminate]. cbn [bind] in R.
    destruct (IH _ _ _ (C2 _ eq_refl) R) as [D1 D2]. split; auto. split; auto. intros s3 [= <-]. auto.
Qed.

Lemma tags_app (ms : list (conv_cfg V)) i : forall p s ts s1 s2, vrun ms s p = Ok s1 -> vstep ms s1 i = Ok s2 ->
  tags ms s ts (p ++ [i]) = tag_step ms s1 (tags ms s ts p) i.
Proof.
  induction p as [|j p IH]; intros s ts s1 s2 R E; cbn [app tags vrun] in *.
  - injection R as <-. now rewrite E.
  - destruct (vstep ms s j) as [s3|]; [|discriminate]. cbn [bind] in R. eauto.
Qed.

Lemma run_app (ms : list (conv_cfg V)) i : forall p s s1, run ms s p = (Ok tt, s1) -> run ms s (p ++ [i]) = run ms s1 [i].
Proof.
  induction p as [|j p IH]; intros s s1 R; cbn [app run] in *.
  - injection R as <-. reflexivity.
  - destruct (step ms s j) as [[[]|e] s2]; [|discriminate]. auto.
Qed.

Theorem rule_exact (ms : list (conv_cfg V)) sts xs p k v xs' sts' s2 u uv x :
  Forall ok_module ms -> careful ms (xs, sts) (first_tags xs) (p ++ [Conv k v]) ->
  vrun ms (xs, sts) p = Ok (xs', sts') -> run ms (inputs sts xs) (p ++ [Conv k v]) = (Ok tt, s2) ->
  t_ok (tag_of (tags ms (xs, sts) (first_tags xs) p) u) = true ->
  nth_error (vars s2) u = Some uv -> nth_error xs' u = Some x ->
  (see s2 uv = x <-> t_ok (tag_of (tags ms (xs, sts) (first_tags xs) (p ++ [Conv k v])) u) = true).
Proof.
  intros OM C R R2 OU EV EX. destruct (careful_app _ _ _ _ _ _ C R) as [C1 C2]. inversion_clear C2 as [|? ? C3 _].
  destruct (inputs_inv sts xs) as [I B]. pose proof (run_ok ms p (inputs sts xs) xs (first_tags xs) OM I) as H. rewrite B in H. specialize (H C1).
  rewrite R in H. destruct H as (s1 & R1 & J & B1). rewrite (run_app _ _ _ _ _ R1) in R2. cbn [run] in R2.
  destruct (step ms s1 (Conv k v)) as [[[]|e] s3] eqn:ES; [|discriminate]. injection R2 as <-.
  pose proof (step_ok ms s1 xs' _ (Conv k v) OM J ltac:(constructor; auto)) as H. rewrite B1 in H.
  destruct (vstep ms (xs', sts') (Conv k v)) as [[xs3 sts3]|e] eqn:EVS; [|rewrite ES in H; discriminate].
  destruct H as (s4 & ES' & J3 & B3). rewrite ES in ES'. injection ES' as <-.
  rewrite (tags_app _ _ _ _ _ _ _ R EVS).
  assert (APP : exists y, xs3 = xs' ++ [y]).
  { cbn [vstep] in EVS. destruct (get ms k); [|discriminate]. destruct (get xs' v); [|discriminate]. cbn [bind] in EVS.
    destruct (conv_call _ _ _) as [[y st]|]; [|discriminate]. cbn [bind] in EVS. injection EVS as <- _. eauto. }
  destruct APP as [y ->].
  assert (LU : (u < length xs')%nat) by (eapply nth_error_lt; eauto).
  assert (VU : nth_error (vars s1) u = Some uv).
  { destruct (get_at _ _ _ _ J OU) as (uv' & x' & A & E1 & _). rewrite E1. rewrite <- EV. symmetry.
    cbn [step] in ES. destruct (nth_error ms k) as [c|]; [|discriminate]. destruct (nth_error (vars s1) v) as [xv|]; [|discriminate].
    assert (VT : vars (touch s1 (v_obj xv)) = vars s1).
    { unfold touch. destruct (nth_error (objs s1) (v_obj xv)) as [[? ? ? ? []]|]; reflexivity. }
    assert (exists nv, vars s3 = vars s1 ++ [nv]) as [nv ->]; [|rewrite nth_error_app1; [exact E1|eapply nth_error_lt; eauto]].
    unfold conv_stmt in ES. destruct ((1 <? kernel_width c) && _).
    - destruct (conv_call _ _ _) as [[? ?]|]; [|discriminate]. injection ES as <-. cbn [vars put_buf bind_new]. rewrite VT. eauto.
    - destruct (o_len _); [|discriminate]. destruct (conv1d _ _) as [[? ?]|]; [|discriminate]. injection ES as <-.
      cbn [vars put_buf bind_var]. set (s5 := put_data _ _ _).
      assert (V5 : vars s5 = vars s1) by (subst s5; cbn [vars put_data]; destruct (0 <? padn c)%nat; exact VT). clearbody s5.
      unfold set_lengths. destruct (nth_error (objs s5) (v_obj xv)) as [[]|]; cbn [vars]; rewrite V5; eauto. }
  split.
  - intros SE. rewrite <- B1. apply (conv_exact ms s1 xs' _ k v s3 u uv x (tag_of (tags ms (xs, sts) (first_tags xs) p) u)); auto. split; auto. now apply tag_ok.
  - intros O. apply (see_at s3 (xs' ++ [y]) _ u uv x (tag_of (tag_step ms (xs', sts') (tags ms (xs, sts) (first_tags xs) p) (Conv k v)) u) J3).
    split; auto; [rewrite nth_error_app1; auto|now apply tag_ok].
Qed.

(** ---- No restart *)
Lemma tag_of_all ts v : Forall (fun t => t_ok t = true) ts -> (v < length ts)%nat -> t_ok (tag_of ts v) = true.
Proof. intros F L. unfold tag_of. rewrite Forall_forall in F. apply F. now apply nth_In. Qed.

Lemma settle_ok f ts : Forall (fun t => t_ok t = true) ts -> Forall (fun t => t_ok t = true) (settle f ts).
Proof.
  intros F. unfold settle. apply Forall_forall. intros t H. apply in_map_iff in H as (u & <- & Hu). rewrite Forall_forall in F. specialize (F u Hu).
  destruct (Nat.eqb (t_fam u) f); auto.
Qed.

Lemma get_lt {A} (l : list A) v a : get l v = Ok a -> nth_error l v = Some a /\ (v < length l)%nat.
Proof. unfold get. destruct (nth_error l v) eqn:E; [|discriminate]. intros [= <-]. split; auto. eapply nth_error_lt; eauto. Qed.

Lemma continuing_careful (ms : list (conv_cfg V)) : forall p xs sts ts s1,
  Forall (fun c => 1 < kernel_width c) ms -> continuing ms (xs, sts) p -> vrun ms (xs, sts) p = Ok s1 ->
  length ts = length xs -> Forall (fun t => t_ok t = true) ts ->
  careful ms (xs, sts) ts p /\ Forall (fun t => t_ok t = true) (tags ms (xs, sts) ts p) /\ length (tags ms (xs, sts) ts p) = length (fst s1).
Proof.
  induction p as [|i p IH]; intros xs sts ts s1 K C R L F; cbn [careful tags vrun continuing] in *.
  - injection R as <-. auto.
  - destruct C as [C1 C2]. destruct (vstep ms (xs, sts) i) as [[xs2 sts2]|] eqn:E; [|discriminate]. cbn [bind] in R.
    assert (ALL : Forall (fun v => t_ok (tag_of ts v) = true) (uses i) /\ Forall (fun t => t_ok t = true) (tag_step ms (xs, sts) ts i)
                  /\ length (tag_step ms (xs, sts) ts i) = length xs2).
    { destruct i as [g v|v|v|k v|f v w]; cbn [vstep uses tag_step fst snd] in *.
      - destruct (get xs v) as [x|] eqn:G; [|discriminate]. apply get_lt in G as [_ G]. injection E as <- <-.
        assert (T : t_ok (tag_of ts v) = true) by (apply tag_of_all; auto; lia).
        split; [constructor; auto|]. split; [apply Forall_app; auto|]. rewrite !app_length. cbn. lia.
      - destruct (get xs v) as [x|] eqn:G; [|discriminate]. apply get_lt in G as [_ G]. injection E as <- <-.
        split; [constructor; auto; apply tag_of_all; auto; lia|]. split; [apply Forall_app; split; auto; now apply settle_ok|].
        rewrite !app_length, settle_length. cbn. lia.
      - destruct (get xs v) as [x|] eqn:G; [|discriminate]. apply get_lt in G as [_ G]. injection E as <- <-.
        split; [constructor; auto; apply tag_of_all; auto; lia|]. split; [now apply settle_ok|]. now rewrite settle_length.
      - destruct (get ms k) as [c|] eqn:Gk; [|discriminate]. destruct (get xs v) as [x|] eqn:G; [|discriminate]. cbn [bind] in E.
        apply get_lt in G as [Gx G]. apply get_lt in Gk as [Gk _].
        assert (NP : in_place c x = false).
        { unfold in_place. rewrite (C1 k v x eq_refl Gx). apply nth_error_In in Gk. rewrite Forall_forall in K. specialize (K c Gk). lia. }
        rewrite NP. destruct (conv_call _ _ _) as [[y st]|]; [|discriminate]. injection E as <- <-.
        split; [constructor; auto; apply tag_of_all; auto; lia|]. split; [apply Forall_app; split; auto; now apply settle_ok|].
        rewrite !app_length, settle_length. cbn. lia.
      - destruct (get xs v) as [x|] eqn:G; [|discriminate]. destruct (get xs w) as [y|] eqn:G'; [|discriminate]. cbn [bind] in E.
        apply get_lt in G as [_ G]. apply get_lt in G' as [_ G'].
        destruct (zip_values f x y); [|discriminate]. injection E as <- <-. split; [repeat constructor; apply tag_of_all; auto; lia|].
        split; [apply Forall_app; split; [now apply settle_ok, settle_ok|constructor; auto]|].
        + apply tag_of_all; [now apply settle_ok, settle_ok|rewrite !settle_length; lia].
        + rewrite !app_length, !settle_length. cbn. lia. }
    destruct ALL as (A1 & A2 & A3). destruct (IH xs2 sts2 _ s1 K (C2 _ eq_refl) R A3 A2) as (D1 & D2 & D3).
    split; auto. split; auto. intros s3 [= <-]. exact D1.
Qed.

Theorem continuing_run (ms : list (conv_cfg V)) sts xs p xs' sts' :
  Forall (fun c => 1 < kernel_width c) ms -> continuing ms (xs, sts) p -> vrun ms (xs, sts) p = Ok (xs', sts') ->
  exists s', run ms (inputs sts xs) p = (Ok tt, s') /\ bufs s' = sts' /\ map (see s') (vars s') = xs'.
Proof.
  intros K C R. assert (FT : Forall (fun t => t_ok t = true) (first_tags xs)).
  { unfold first_tags. apply Forall_forall. intros t H. apply in_map_iff in H as (n & <- & _). reflexivity. }
  destruct (continuing_careful ms p xs sts (first_tags xs) _ K C R) as (D1 & D2 & D3); auto.
  { unfold first_tags. now rewrite map_length, seq_length. }
  assert (OM : Forall ok_module ms) by (eapply Forall_impl; [|exact K]; intros c H; now left).
  pose proof (careful_run ms sts xs p OM D1) as H. rewrite R in H. destruct H as (s' & R' & B & L & S). exists s'. split; auto. split; auto.
  cbn [fst] in D3. apply nth_ext with (d := see s' (mkV 0 0 0)) (d' := see s' (mkV 0 0 0)); [now rewrite map_length|].
  intros n Hn. rewrite map_length in Hn. rewrite map_nth.
  destruct (nth_error (vars s') n) as [xv|] eqn:E1; [|apply nth_error_None in E1; lia].
  destruct (nth_error xs' n) as [x|] eqn:E2; [|apply nth_error_None in E2; lia].
  rewrite (nth_error_nth _ _ _ E1), (nth_error_nth _ _ _ E2). apply (S n); auto. apply tag_of_all; auto. lia.
Qed.

(** ---- Chains *)
Lemma chain_careful (ms : list (conv_cfg V)) : forall Ls k v s ts, length ts = S v -> t_ok (tag_of ts v) = true ->
  length (fst s) = S v -> careful ms s ts (chain Ls k v) /\
  forall s1, vrun ms s (chain Ls k v) = Ok s1 -> t_ok (tag_of (tags ms s ts (chain Ls k v)) (v + length Ls)) = true.
Proof.
  induction Ls as [|[c|g] Ls IH]; intros k v [xs sts] ts L T X; cbn [chain careful tags vrun length fst] in *.
  - split; auto. intros s1 _. now rewrite Nat.add_0_r.
  - assert (STEP : forall s2, vstep ms (xs, sts) (Conv k v) = Ok s2 -> length (fst s2) = S (S v) /\
        length (tag_step ms (xs, sts) ts (Conv k v)) = S (S v) /\ t_ok (tag_of (tag_step ms (xs, sts) ts (Conv k v)) (S v)) = true).
    { intros s2 E. cbn [vstep tag_step fst snd] in *. destruct (get ms k) as [c'|]; [|discriminate]. destruct (get xs v) as [x|]; [|discriminate].
      cbn [bind] in E. destruct (conv_call _ _ _) as [[y st]|]; [|discriminate]. injection E as <-. cbn [fst]. rewrite app_length. cbn [length].
      destruct (in_place c' x); rewrite app_length, ?spoil_length, settle_length; cbn [length]; (split; [lia|]; split; [lia|]);
        unfold tag_of; rewrite app_nth2; rewrite ?spoil_length, settle_length, L, ?Nat.sub_diag; auto. }
    split.
    + split; [constructor; auto|]. intros s2 E. destruct (STEP s2 E) as (S1 & S2 & S3). now apply IH.
    + intros s1 R. destruct (vstep ms (xs, sts) (Conv k v)) as [s2|] eqn:E; [|discriminate]. cbn [bind] in R.
      destruct (STEP s2 eq_refl) as (S1 & S2 & S3). rewrite Nat.add_succ_r, <- Nat.add_succ_l. eapply IH; eauto.
  - assert (STEP : forall s2, vstep ms (xs, sts) (Map g v) = Ok s2 -> length (fst s2) = S (S v) /\
        length (tag_step ms (xs, sts) ts (Map g v)) = S (S v) /\ t_ok (tag_of (tag_step ms (xs, sts) ts (Map g v)) (S v)) = true).
    { intros s2 E. cbn [vstep tag_step fst snd] in *. destruct (get xs v) as [x|]; [|discriminate].
      cbn [bind] in E. injection E as <-. cbn [fst]. rewrite !app_length. cbn [length]. split; [lia|]. split; [lia|].
      unfold tag_of at 1. rewrite app_nth2 by lia. now rewrite L, Nat.sub_diag. }
    split.
    + split; [constructor; auto|]. intros s2 E. destruct (STEP s2 E) as (S1 & S2 & S3). now apply IH.
    + intros s1 R. destruct (vstep ms (xs, sts) (Map g v)) as [s2|] eqn:E; [|discriminate]. cbn [bind] in R.
      destruct (STEP s2 eq_refl) as (S1 & S2 & S3). rewrite Nat.add_succ_r, <- Nat.add_succ_l. eapply IH; eauto.
Qed.

Lemma get_new {A} (l : list A) a : get (l ++ [a]) (length l) = Ok a.
Proof. unfold get. now rewrite nth_error_new. Qed.

Lemma list_set_mid {A} (l : list A) a b r : list_set (l ++ a :: r) (length l) b = l ++ b :: r.
Proof. induction l as [|c l IH]; cbn; auto. now rewrite IH. Qed.

Lemma chain_vrun : forall (Ls : list (layer V)) sts xs x pm pb, length sts = length Ls -> length pb = length pm ->
  match stack_call Ls sts x with
  | Ok (y, sts') => exists xs', vrun (pm ++ modules Ls) (xs ++ [x], pb ++ conv_bufs Ls sts) (chain Ls (length pm) (length xs)) = Ok (xs', pb ++ conv_bufs Ls sts') /\
      nth_error xs' (length xs + length Ls) = Some y
  | Err e => vrun (pm ++ modules Ls) (xs ++ [x], pb ++ conv_bufs Ls sts) (chain Ls (length pm) (length xs)) = Err e
  end.
Proof.
  induction Ls as [|[c|g] Ls IH]; intros sts xs x pm pb H HL.
  - cbn. eexists. split; [reflexivity|]. rewrite Nat.add_0_r. apply nth_error_new.
  - destruct sts as [|st sts]; [discriminate|]. cbn [stack_call layer_call modules conv_bufs chain vrun vstep length].
    assert (GM : get (pm ++ c :: modules Ls) (length pm) = Ok c) by (unfold get; rewrite nth_error_app2, Nat.sub_diag; auto).
    assert (NB : nth (length pm) (pb ++ st :: conv_bufs Ls sts) no_buffers = st) by (rewrite app_nth2, HL, Nat.sub_diag; auto; lia).
    rewrite GM, get_new, NB. cbn [bind]. destruct (conv_call c st x) as [[y st1]|e]; cbn [bind]; [|reflexivity].
    rewrite <- HL, list_set_mid. specialize (IH sts (xs ++ [x]) y (pm ++ [c]) (pb ++ [st1]) ltac:(now injection H) ltac:(rewrite !app_length; cbn; lia)).
    rewrite !app_length in IH. cbn [length] in IH. rewrite !Nat.add_1_r, <- !app_assoc in IH. cbn [app] in IH. rewrite HL, <- !app_assoc. cbn [app].
    destruct (stack_call Ls sts y) as [[z sts1]|e]; cbn [bind]; [|exact IH]. destruct IH as (xs' & R & N). exists xs'. cbn [conv_bufs].
    rewrite <- app_assoc in R. split; [exact R|]. now rewrite Nat.add_succ_r.
  - destruct sts as [|st sts]; [discriminate|]. cbn [stack_call layer_call modules conv_bufs chain vrun vstep length].
    rewrite get_new. cbn [bind].
    specialize (IH sts (xs ++ [x]) (map_call g x) pm pb ltac:(now injection H) HL). rewrite !app_length in IH. cbn [length] in IH. rewrite Nat.add_1_r in IH.
    destruct (stack_call Ls sts (map_call g x)) as [[z sts1]|e]; cbn [bind]; [|exact IH]. destruct IH as (xs' & R & N). exists xs'. cbn [conv_bufs].
    split; [exact R|]. now rewrite Nat.add_succ_r.
Qed.

Theorem chain_run (Ls : list (layer V)) sts (x : batch V) : length sts = length Ls -> Forall ok_module (modules Ls) ->
  match stack_call Ls sts x with
  | Ok (y, sts') => exists s' yv, run (modules Ls) (inputs (conv_bufs Ls sts) [x]) (chain Ls 0 0) = (Ok tt, s') /\
      bufs s' = conv_bufs Ls sts' /\ nth_error (vars s') (length Ls) = Some yv /\ see s' yv = y
  | Err e => fst (run (modules Ls) (inputs (conv_bufs Ls sts) [x]) (chain Ls 0 0)) = Err e
  end.
Proof.
  intros HL OM. destruct (chain_careful (modules Ls) Ls 0 0 ([x], conv_bufs Ls sts) (first_tags [x])) as [C T]; auto.
  pose proof (careful_run (modules Ls) (conv_bufs Ls sts) [x] _ OM C) as R.
  pose proof (chain_vrun Ls sts [] x [] [] HL eq_refl) as CV. cbn [app length] in CV.
  destruct (stack_call Ls sts x) as [[y sts']|e].
  - destruct CV as (xs' & R1 & N). rewrite R1 in R. destruct R as (s' & R' & B & L & S). specialize (T _ R1). cbn [Nat.add] in T, N.
    assert (LT : (length Ls < length (vars s'))%nat) by (rewrite L; eapply nth_error_lt; eauto).
    destruct (nth_error (vars s') (length Ls)) as [yv|] eqn:E; [|apply nth_error_None in E; lia]. exists s', yv. split; auto. split; auto. split; auto.
    eapply S; eauto.
  - rewrite CV in R. exact R.
Qed.

End ShareProofs.

Section Caller.
Context {V : Type}.

Lemma add_where_rows (f : row -> bool) (g : row -> Z) k rs :
  add_where (map f rs) k (map g rs) = map (fun r => if f r then g r + k else g r) rs.
Proof. unfold add_where. induction rs as [|r rs IH]; cbn; [reflexivity|]. now rewrite IH. Qed.

Lemma roll_turns p (r : list V) : (p <= length r)%nat -> exists a b, r = a ++ b /\ length b = p /\ roll p r = b ++ a.
Proof.
  intros H. destruct (Nat.eq_dec p (length r)) as [E|E].
  - exists [], r. rewrite app_nil_r. split; auto. split; auto. unfold roll. subst p.
    destruct r as [|v r]; [reflexivity|]. rewrite Nat.mod_same by discriminate. rewrite Nat.sub_0_r, skipn_all, firstn_all. reflexivity.
  - exists (firstn (length r - p) r), (skipn (length r - p) r). rewrite firstn_skipn. split; auto.
    split; [rewrite skipn_length; lia|]. unfold roll. rewrite Nat.mod_small by lia. reflexivity.
Qed.

Lemma caller_data (c : conv_cfg V) st cc rs w rows s' :
  kernel_width c <= 1 -> (0 < padn c)%nat -> In true (map rsos rs) -> In false (map rsos rs) ->
  Forall (fun r => 0 <= rlen r /\ rlen r + (if rsos r then Z.of_nat (padn c) else 0) + (if reos r then Z.of_nat (padn c) else 0) <= Z.of_nat w) rs ->
  Forall (fun r => length r = w) rows ->
  run [c] (inputs [st] [mkBatch w rows (of_rows cc rs)]) [Share.Conv 0 0] = (Ok tt, s') ->
  exists xv, nth_error (vars s') 0 = Some xv /\
    forall i old r, nth_error rows i = Some old -> nth_error rs i = Some r ->
      exists new, nth_error (bd (see s' xv)) i = Some new /\
        (if rsos r then exists a b, old = a ++ b /\ length b = padn c /\ new = b ++ a else new = old).
Proof.
  intros HK HP HT HF HL HW. set (x := mkBatch w rows (of_rows cc rs)).
  assert (AS : all_starting (bm x) = false).
  { apply not_true_iff_false. unfold all_starting, all_true. rewrite forallb_forall. intros H. specialize (H false HF). discriminate. }
  assert (YS : any_starting (bm x) = true).
  { unfold any_starting, any_true. rewrite existsb_exists. exists true. split; [exact HT|reflexivity]. }
  set (m1 := with_lens (bm x) (pad_lens (Z.of_nat (padn c)) (bm x))).
  assert (PL : pad_lens (Z.of_nat (padn c)) (bm x)
     = map (fun r => rlen r + (if rsos r then Z.of_nat (padn c) else 0) + (if reos r then Z.of_nat (padn c) else 0)) rs).
  { unfold pad_lens, all_starting_and_ending, any_starting_or_ending. rewrite AS, YS. cbn [andb orb].
    change (lens (bm x)) with (map rlen rs). change (sos (bm x)) with (map rsos rs). change (eos (bm x)) with (map reos rs).
    rewrite (add_where_rows rsos rlen), (add_where_rows reos). apply map_ext. intros r. destruct (rsos r), (reos r); lia. }
  assert (MX : exists mx, max_length m1 = Ok mx /\ mx <= Z.of_nat w).
  { unfold max_length, m1. cbn [lens with_lens]. rewrite PL. set (g := fun r : row => rlen r + _ + _). destruct rs as [|r rs']; [destruct HT|].
    cbn [map zmax]. eexists. split; [reflexivity|]. inversion HL as [|? ? [_ H1] H2]; subst. rewrite Forall_forall in H2.
    destruct (fold_max_spec (map g rs') (g r)) as ([E|E] & _ & _).
    - rewrite E. exact H1.
    - apply in_map_iff in E as (q & Eq & Hq). rewrite <- Eq. apply (H2 q Hq). }
  destruct MX as (mx & MX & LE).
  assert (RO : rolled c x = map (fun p' : bool * list V => if fst p' then roll (padn c) (snd p') else snd p') (zip (map rsos rs) rows)).
  { unfold rolled. replace (0 <? padn c)%nat with true by lia. fold m1. rewrite MX.
    replace (0 <? mx - Z.of_nat (bw x)) with false by (subst x; cbn [bw]; lia).
    change (all_starting_and_ending m1) with (all_starting_and_ending (bm x)). unfold all_starting_and_ending.
    change (any_starting m1) with (any_starting (bm x)). change (all_starting m1) with (all_starting (bm x)).
    rewrite AS, YS. reflexivity. }
  set (xv := mkV 0 0 w).
  set (s0 := mkS [map rlen rs] [mkO (ids (bm x)) (sos (bm x)) (eos (bm x)) (chs (bm x)) (Own 0)] [rows] [xv] [st]).
  change (inputs [st] [x]) with s0. cbn [run step nth_error vars s0]. unfold conv_stmt. cbv zeta.
  change (touch s0 (v_obj xv)) with s0. assert (SX : see s0 xv = x) by reflexivity. rewrite SX.
  replace (1 <? kernel_width c) with false by lia. cbn [andb nth objs s0 o_len].
  replace (0 <? padn c)%nat with true by lia.
  destruct (conv1d c x) as [[y tmp]|e]; [|discriminate]. intros [= <-]. exists xv. split; [reflexivity|].
  intros i old r Ho Hr. cbn [see bd v_data xv datas nth put_buf bind_var set_lengths put_data put_cell objs s0 nth_error list_set app].
  rewrite RO. clear - HL HW Ho Hr. revert rs rows HL HW Ho Hr.
  induction i as [|i IH]; intros [|r0 rs] [|old0 rows] HL HW Ho Hr; try discriminate; cbn [nth_error] in Ho, Hr; cbn [map zip].
  - injection Ho as ->. injection Hr as ->. eexists. split; [reflexivity|]. cbn [fst snd].
    inversion HL as [|? ? [H0 H1] _]; subst. inversion HW as [|? ? H2 _]; subst. destruct (rsos r); [|reflexivity].
    destruct (roll_turns (padn c) old) as (a & b & -> & E2 & E3); [destruct (reos r); lia|]. now exists a, b.
  - inversion HL; subst. inversion HW; subst. now apply IH.
Qed.
End Caller.

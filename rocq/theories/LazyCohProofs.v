(** Proofs about Lazy.v: inconsistent arguments, sizes, and cache coherence. *)

From Coq Require Import String List ZArith Bool Lia.
From Verif Require Import Py MetaSplitProofs Lazy LazySpec LazyProofs LazyIsoProofs.
Import ListNotations.
Open Scope nat_scope.

(* ------------------------------------------------------------------ invariants of one proxy *)

Definition stable (P : proxy -> Prop) : Prop :=
  (forall a h o h', P (Pending a) -> init_obj h a = Ok (o, h') -> P (Made o)) /\
  (forall a h e, P (Pending a) -> init_obj h a = Err e -> P (Made bare)) /\
  (forall o h g, P (Made o) -> P (Made (snd (read h o g)))) /\
  (forall o f t, P (Made o) -> get_fld o f = Ok t -> P (Made (set_fld o f t))).

Definition at_ (P : proxy -> Prop) (s : state) (p : nat) : Prop :=
  exists pr, nth_error (st_prox s) p = Some pr /\ P pr.

Lemma at_put P s p q o : at_ P s p -> (p = q -> P (Made o)) -> at_ P (put s q o) p.
Proof.
  intros (pr & H & HP) Ho. unfold at_. cbn [put st_prox]. destruct (Nat.eq_dec q p) as [->|N].
  - rewrite nth_error_list_set_eq by (eapply nth_error_some_lt; eauto). eauto.
  - rewrite nth_error_list_set_neq by auto. eauto.
Qed.

Lemma at_heap P s p h : at_ P s p -> at_ P (mkSt h (st_prox s)) p.
Proof. auto. Qed.

Lemma at_push P s p a : at_ P s p -> at_ P (snd (push s a)) p.
Proof.
  intros (pr & H & HP). exists pr. cbn [push snd st_prox]. split; auto.
  rewrite nth_error_app1; auto. eapply nth_error_some_lt; eauto.
Qed.

Lemma at_touch P s p q : stable P -> at_ P s p ->
  at_ P (snd (touch s q)) p /\ (forall o, q = p -> fst (touch s q) = Ok o -> P (Made o)).
Proof.
  intros (S1 & S2 & _ & _) (pr & H & HP). unfold touch.
  destruct (nth_error (st_prox s) q) as [[a|o]|] eqn:E; cbn [fst snd].
  - assert (K : q = p -> pr = Pending a) by (intros ->; congruence).
    destruct (init_obj (st_heap s) a) as [[o h]|e] eqn:Ei; cbn [fst snd].
    + split.
      * apply (at_put P (mkSt h (st_prox s))); [exists pr; auto|]. intros <-. rewrite (K eq_refl) in HP. eauto.
      * intros o' Hq Ho. inversion Ho; subst o'. rewrite (K Hq) in HP. eauto.
    + split; [|discriminate]. apply at_put; [exists pr; auto|]. intros <-. rewrite (K eq_refl) in HP. eauto.
  - split; [exists pr; auto|]. intros o' -> Ho. inversion Ho; subst. congruence.
  - split; [exists pr; auto|discriminate].
Qed.

Lemma at_source P s p x : stable P -> at_ P s p -> at_ P (snd (source s x)) p.
Proof.
  intros S H. destruct x as [l n|q f]; cbn [source]; [exact H|].
  destruct (at_touch P s p q S H) as [K _]. destruct (touch s q) as [[o|e] s1]; exact K.
Qed.

Lemma at_derived P s p q c fi ft : stable P -> at_ P s p -> at_ P (snd (derived s q c fi ft)) p.
Proof.
  intros S H. unfold derived. destruct (at_touch P s p q S H) as [K _].
  destruct (touch s q) as [[o|e] s1]; [|exact K]. destruct (derive o c fi ft); [|exact K].
  apply at_push. exact K.
Qed.

Lemma at_set_at P s p q o f x : stable P -> at_ P s p -> (q = p -> P (Made o)) -> at_ P (snd (set_at s q o f x)) p.
Proof.
  intros (_ & _ & _ & S) H Ho. unfold set_at.
  destruct (get_fld o FLens) as [tl|] eqn:E; cbn [bind]; [|exact H].
  destruct (get_fld o f) as [tm|]; cbn [bind]; [|exact H].
  destruct (tensor_mask _ _) as [sel|]; cbn [bind]; [|exact H].
  destruct (broadcast _ _) as [w|]; [|exact H].
  cbn [snd]. apply at_put; [exact H|]. intro N. apply S; auto.
Qed.

(** No operation except an assignment to an attribute of [p] breaks a stable invariant of [p]. *)
Lemma at_step P s p c : stable P -> at_ P s p -> assigns p c = false -> at_ P (snd (step s c)) p.
Proof.
  intros S H Ha. pose proof S as (S1 & S2 & S3 & S4).
  destruct c as [i xs xe xl|q g|q f x|q f g x|q f x|q f g x|q|q|q lo hi]; cbn [step assigns] in *;
    try (apply at_derived; auto).
  - pose proof (at_source P s p xs S H) as K1. destruct (source s xs) as [[t1|e] s1]; auto. cbn [snd] in K1.
    pose proof (at_source P s1 p xe S K1) as K2. destruct (source s1 xe) as [[t2|e] s2]; auto. cbn [snd] in K2.
    pose proof (at_source P s2 p xl S K2) as K3. destruct (source s2 xl) as [[t3|e] s3]; auto.
    apply at_push. exact K3.
  - destruct (at_touch P s p q S H) as [K M]. destruct (touch s q) as [[o|e] s1]; [|exact K]. cbn [fst snd] in *.
    destruct (read (st_heap s1) o g) as [r o'] eqn:Er. cbn [snd]. apply at_put; [exact K|].
    intros ->. assert (o' = snd (read (st_heap s1) o g)) as -> by (rewrite Er; reflexivity).
    apply S3. apply M; auto.
  - apply Nat.eqb_neq in Ha.
    pose proof (at_source P s p x S H) as K1. destruct (source s x) as [[t1|e] s1]; auto. cbn [snd] in K1.
    destruct (at_touch P s1 p q S K1) as [K M]. destruct (touch s1 q) as [[o|e] s2]; [|exact K]. cbn [snd] in *.
    apply at_put; [exact K|]. intros ->. congruence.
  - destruct (at_touch P s p q S H) as [K M]. destruct (touch s q) as [[o|e] s1]; [|exact K]. cbn [fst snd] in *.
    destruct (get_fld o f) as [t|] eqn:Ef; [|exact K]. destruct (elementwise _ _ _); [|exact K].
    cbn [snd]. apply at_put; [exact K|]. intro N. apply S4; auto.
  - destruct (at_touch P s p q S H) as [K M]. destruct (touch s q) as [[o|e] s1]; [|exact K]. cbn [fst snd] in *.
    apply at_set_at; auto.
  - destruct (at_touch P s p q S H) as [K M]. destruct (touch s q) as [[o|e] s1]; [|exact K]. cbn [fst snd] in *.
    destruct (masked_lengths _ _ _) as [v|]; cbn [bind]; [|exact K].
    destruct (elementwise _ _ _) as [w|]; [|exact K].
    apply at_set_at; auto.
Qed.

Lemma at_run P s p cs : stable P -> at_ P s p -> Forall (fun c => assigns p c = false) cs -> at_ P (after s cs) p.
Proof.
  intros S H F. unfold after. revert s H. induction F as [|c cs Hc F IH]; intros s H; [exact H|].
  cbn [run]. pose proof (at_step P s p c S H Hc) as K.
  destruct (step s c) as [r s1]. specialize (IH s1 K). destruct (run s1 cs). exact IH.
Qed.

(* ------------------------------------------------------------------ inconsistent arguments *)

Definition bad (pr : proxy) : Prop :=
  match pr with Pending a => ~ cons_args a | Made o => o = bare end.

Lemma bad_stable : stable bad.
Proof.
  split; [|split; [|split]].
  - intros a h o h' H E. apply init_obj_made in E as [C _]. contradiction.
  - reflexivity.
  - intros o h g ->. destruct g; reflexivity.
  - intros o f t -> H. destruct f; discriminate.
Qed.

Lemma bad_sees s p g : at_ bad s p -> sees s p g = Err ValueError \/ sees s p g = Err AttributeError.
Proof.
  intros (pr & H & B). destruct pr as [a|o].
  - left. rewrite (sees_pending s p g a H). rewrite init_obj_bad by exact B. reflexivity.
  - right. cbn in B. subst o. rewrite (sees_made s p g bare H). destruct g; reflexivity.
Qed.

Lemma create_state s i sv sn ev en lv ln :
  exists h, step s (Create i (New sv sn) (New ev en) (New lv ln)) =
    (Ok (ONew (length (st_prox s))),
     mkSt h (st_prox s ++ [Pending (mkArgs i (mkT (length (st_heap s)) (seq 0 (length sv)) sn)
                                             (mkT (length (st_heap s) + 1) (seq 0 (length ev)) en)
                                             (mkT (length (st_heap s) + 2) (seq 0 (length lv)) ln) false)])) /\
    h = ((st_heap s ++ [sv]) ++ [ev]) ++ [lv].
Proof.
  eexists. cbn [step source talloc st_heap st_prox push]. rewrite !app_length. cbn [length].
  split; [|reflexivity].
  replace (length (st_heap s) + 1 + 1) with (length (st_heap s) + 2) by lia. reflexivity.
Qed.

Lemma rejected s i sv sn ev en lv ln r s1 cs g :
  step s (Create i (New sv sn) (New ev en) (New lv ln)) = (r, s1) ->
  ~ (length sv = length i /\ length ev = length i /\ length lv = length i) ->
  Forall (fun c => assigns (length (st_prox s)) c = false) cs ->
  r = Ok (ONew (length (st_prox s))) /\
  sees s1 (length (st_prox s)) g = Err ValueError /\
  (sees (after s1 cs) (length (st_prox s)) g = Err ValueError \/
   sees (after s1 cs) (length (st_prox s)) g = Err AttributeError).
Proof.
  intros H N F. destruct (create_state s i sv sn ev en lv ln) as (h & E & _). rewrite E in H. inversion H; subst.
  split; [reflexivity|].
  assert (B : nth_error (st_prox s ++ [Pending (mkArgs i (mkT (length (st_heap s)) (seq 0 (length sv)) sn)
                                             (mkT (length (st_heap s) + 1) (seq 0 (length ev)) en)
                                             (mkT (length (st_heap s) + 2) (seq 0 (length lv)) ln) false)])
                (length (st_prox s)) = Some (Pending (mkArgs i (mkT (length (st_heap s)) (seq 0 (length sv)) sn)
                                             (mkT (length (st_heap s) + 1) (seq 0 (length ev)) en)
                                             (mkT (length (st_heap s) + 2) (seq 0 (length lv)) ln) false))).
  { rewrite nth_error_app2, Nat.sub_diag by lia. reflexivity. }
  match type of B with _ = Some (Pending ?a) => assert (C : ~ cons_args a) end.
  { unfold cons_args. cbn [a_ids a_lens a_sos a_eos t_offs]. rewrite !seq_length. lia. }
  split.
  - erewrite sees_pending by (cbn [st_prox]; exact B). rewrite init_obj_bad by exact C. reflexivity.
  - apply bad_sees. apply at_run; auto using bad_stable. eexists. split; [exact B|exact C].
Qed.

(* ------------------------------------------------------------------ sizes *)

Definition sized (i : list string) (pr : proxy) : Prop :=
  match pr with
  | Pending a => a_ids a = i /\ cons_args a
  | Made o => o_ids o = Some i /\ exists s e l, o_sos o = Some s /\ o_eos o = Some e /\ o_lens o = Some l /\
      length (t_offs s) = length i /\ length (t_offs e) = length i /\ length (t_offs l) = length i
  end.

Lemma read_fields h o g :
  let o' := snd (read h o g) in
  o_ids o' = o_ids o /\ o_sos o' = o_sos o /\ o_eos o' = o_eos o /\ o_lens o' = o_lens o.
Proof.
  assert (A : forall o', update_lengths h o = Ok o' ->
     o_ids o' = o_ids o /\ o_sos o' = o_sos o /\ o_eos o' = o_eos o /\ o_lens o' = o_lens o).
  { unfold update_lengths. intros o' E. destruct (slot (o_lupd o)) as [[|]|]; cbn [bind] in E; try discriminate.
    - destruct (get_fld o FLens); cbn [bind] in E; try discriminate.
      destruct (zmin _); cbn [bind] in E; try discriminate. destruct (zmax _); cbn [bind] in E; try discriminate.
      inversion E; subst; cbn. auto.
    - inversion E; subst; auto. }
  assert (B : forall o', update_logicals h o = Ok o' ->
     o_ids o' = o_ids o /\ o_sos o' = o_sos o /\ o_eos o' = o_eos o /\ o_lens o' = o_lens o).
  { unfold update_logicals. intros o' E. destruct (slot (o_fupd o)) as [[|]|]; cbn [bind] in E; try discriminate.
    - destruct (get_fld o FSos); cbn [bind] in E; try discriminate.
      destruct (get_fld o FEos); cbn [bind] in E; try discriminate.
      inversion E; subst; cbn. auto.
    - inversion E; subst; auto. }
  destruct g; cbn [read snd]; auto;
  solve [unfold length_summary; destruct (update_lengths h o); cbn [snd]; auto
        |unfold flag_summary; destruct (update_logicals h o); cbn [snd]; auto].
Qed.

Lemma sized_stable i : stable (sized i).
Proof.
  split; [|split; [|split]].
  - intros a h o h' (H & C) E. apply init_obj_made in E as (_ & s & e & l & -> & _ & _ & _ & _ & L1 & L2 & L3 & _).
    destruct C as (C1 & C2 & C3).
    cbn. split; [congruence|]. exists s, e, l. repeat split; congruence.
  - intros a h e (H & C) E. apply init_obj_err in E as [_ E]. contradiction.
  - intros o h g H. destruct (read_fields h o g) as (R1 & R2 & R3 & R4).
    cbn [sized] in *. rewrite R1, R2, R3, R4. exact H.
  - intros o f t (H & s & e & l & Hs & He & Hl & L) E. unfold get_fld in E. destruct f; cbn in *;
      (split; [exact H|]); rewrite ?Hs, ?He, ?Hl in *; cbn in E; inversion E; subst; eauto 10.
Qed.

Lemma sized_sees s p i : at_ (sized i) s p ->
  exists ss es l, sees s p GIds = Ok (OIds i) /\ sees s p GSos = Ok (OBools ss) /\
    sees s p GEos = Ok (OBools es) /\ sees s p GLens = Ok (OInts l) /\
    length ss = length i /\ length es = length i /\ length l = length i.
Proof.
  intros H. pose proof H as (pr & Hp & S).
  assert (K : forall o h, sized i (Made o) -> exists ss es l,
    fst (read h o GIds) = Ok (OIds i) /\ fst (read h o GSos) = Ok (OBools ss) /\
    fst (read h o GEos) = Ok (OBools es) /\ fst (read h o GLens) = Ok (OInts l) /\
    length ss = length i /\ length es = length i /\ length l = length i).
  { intros o h (Hi & s1 & e1 & l1 & Hs & He & Hl & L1 & L2 & L3).
    exists (map truth (tread h s1)), (map truth (tread h e1)), (tread h l1).
    cbn [read fst]. unfold get_fld. rewrite Hi, Hs, He, Hl. cbn [slot bind].
    unfold tread. rewrite !map_length. repeat split; auto. }
  destruct pr as [a|o].
  - destruct (init_obj_good (st_heap s) a (proj2 S)) as (o & h & E).
    destruct (K o h) as (ss & es & l & K').
    { apply (proj1 (sized_stable i) a (st_heap s) o h); auto. }
    exists ss, es, l. rewrite !(sees_pending s p _ a Hp), E. exact K'.
  - destruct (K o (st_heap s) S) as (ss & es & l & K').
    exists ss, es, l. rewrite !(sees_made s p _ o Hp). exact K'.
Qed.

Lemma accepted s i sv sn ev en lv ln r s1 cs :
  step s (Create i (New sv sn) (New ev en) (New lv ln)) = (r, s1) ->
  length sv = length i -> length ev = length i -> length lv = length i ->
  Forall (fun c => assigns (length (st_prox s)) c = false) cs ->
  let p := length (st_prox s) in
  sees s1 p GIds = Ok (OIds i) /\ sees s1 p GSos = Ok (OBools (map truth sv)) /\
  sees s1 p GEos = Ok (OBools (map truth ev)) /\ sees s1 p GLens = Ok (OInts lv) /\
  exists ss es l, sees (after s1 cs) p GIds = Ok (OIds i) /\ sees (after s1 cs) p GSos = Ok (OBools ss) /\
    sees (after s1 cs) p GEos = Ok (OBools es) /\ sees (after s1 cs) p GLens = Ok (OInts l) /\
    length ss = length i /\ length es = length i /\ length l = length i.
Proof.
  intros H L1 L2 L3 F p. destruct (create_state s i sv sn ev en lv ln) as (h & E & Eh). rewrite E in H.
  inversion H; subst r s1. clear H E.
  set (a := mkArgs i _ _ _ false).
  assert (B : nth_error (st_prox s ++ [Pending a]) p = Some (Pending a)).
  { unfold p. rewrite nth_error_app2, Nat.sub_diag by lia. reflexivity. }
  assert (C : cons_args a).
  { unfold cons_args, a. cbn [a_ids a_lens a_sos a_eos t_offs]. rewrite !seq_length. lia. }
  assert (LH : length h = length (st_heap s) + 3) by (subst h; rewrite !app_length; cbn; lia).
  destruct (init_obj_good h a C) as (o & h' & Eo). pose proof Eo as Eo'.
  apply init_obj_made in Eo as (_ & s1 & e1 & l1 & -> & _ & _ & _ & V & _).
  destruct V as (_ & V1 & V2 & V3).
  { unfold a. cbn. intros x [<-|[<-|[<-|[]]]]; lia. }
  rewrite !(sees_pending (mkSt h (st_prox s ++ [Pending a])) p _ a B). cbn [st_heap]. rewrite Eo'. cbn.
  assert (T : forall k v n, nth k h [] = v -> tread h (mkT k (seq 0 (length v)) n) = v).
  { intros k v n Hk. unfold tread. cbn [t_base t_offs]. rewrite Hk. clear.
    induction v as [|z v IH]; [reflexivity|].
    cbn [length seq map]. f_equal. rewrite <- seq_shift, map_map. exact IH. }
  assert (N0 : nth (length (st_heap s)) h [] = sv).
  { subst h. rewrite <- !app_assoc. cbn [app]. apply nth_middle. }
  assert (N1 : nth (length (st_heap s) + 1) h [] = ev).
  { subst h. rewrite <- app_assoc. replace (length (st_heap s) + 1) with (length (st_heap s ++ [sv])) by (rewrite app_length; reflexivity).
    cbn [app]. apply nth_middle. }
  assert (N2 : nth (length (st_heap s) + 2) h [] = lv).
  { subst h. replace (length (st_heap s) + 2) with (length ((st_heap s ++ [sv]) ++ [ev])) by (rewrite !app_length; cbn; lia).
    apply nth_middle. }
  unfold a in V1, V2, V3. cbn [a_sos a_eos a_lens] in V1, V2, V3.
  rewrite V1, V2, V3, !T by assumption.
  repeat split; auto.
  apply sized_sees. apply at_run; auto using sized_stable. exists (Pending a). split; [exact B|].
  split; [reflexivity|exact C].
Qed.

(* ------------------------------------------------------------------ cache coherence *)

Definition flags_of (s e : list bool) :=
  (any_true s, any_true e, all_true s, all_true e, any_true s || any_true e, all_true s && all_true e)%bool.

(** The caches of a built object that are not marked as out of date are right; sos and eos do not share
    storage with lengths. *)
Record coh (h : heap) (o : obj) : Prop := mkCoh {
  c_len : o_lupd o = Some false ->
    exists t mn mx, o_lens o = Some t /\ o_mm o = Some (mn, mx) /\ zmin (tread h t) = Ok mn /\ zmax (tread h t) = Ok mx;
  c_fl : o_fupd o = Some false ->
    exists ts te, o_sos o = Some ts /\ o_eos o = Some te /\
      o_fl o = Some (flags_of (map truth (tread h ts)) (map truth (tread h te)));
  c_sep : forall tl t, o_lens o = Some tl -> o_sos o = Some t \/ o_eos o = Some t -> t_base t <> t_base tl;
  c_lu : o_lens o <> None -> o_lupd o <> None;
  c_fu : o_sos o <> None -> o_fupd o <> None
}.

Definition cok (h : heap) (pr : proxy) : Prop :=
  match pr with
  | Pending a => a_copy a = true \/ (t_base (a_lens a) <> t_base (a_sos a) /\ t_base (a_lens a) <> t_base (a_eos a))
  | Made o => coh h o
  end.

Lemma coh_bare h : coh h bare.
Proof. constructor; cbn; try discriminate; auto. Qed.

Lemma coh_fresh h i s e l : t_base l <> t_base s -> t_base l <> t_base e -> coh h (fresh_obj i s e l).
Proof.
  intros H1 H2. constructor; cbn; try discriminate; auto.
  intros tl t Hl [Ht|Ht]; inversion Hl; inversion Ht; subst; auto.
Qed.

Lemma coh_heap h h' o :
  (forall x, In x (reaches (Made o)) -> nth x h' [] = nth x h []) -> coh h o -> coh h' o.
Proof.
  intros C [C1 C2 C3 C4 C5]. constructor; auto.
  - intro U. destruct (C1 U) as (t & mn & mx & H1 & H2 & H3 & H4). exists t, mn, mx.
    rewrite (tread_cell h h' t); auto. apply C. cbn [reaches]. rewrite H1, !in_app_iff. cbn. auto.
  - intro U. destruct (C2 U) as (ts & te & H1 & H2 & H3). exists ts, te.
    rewrite (tread_cell h h' ts), (tread_cell h h' te); auto; apply C; cbn [reaches];
      rewrite H1, H2, !in_app_iff; cbn; auto.
Qed.

Lemma update_lengths_coh h o o' : coh h o -> update_lengths h o = Ok o' -> coh h o'.
Proof.
  intros C. pose proof C as [C1 C2 C3 C4 C5]. unfold update_lengths, get_fld.
  destruct (o_lupd o) as [[|]|] eqn:U; cbn [slot bind]; try discriminate.
  - destruct (o_lens o) as [t|] eqn:E; cbn [slot bind]; try discriminate.
    destruct (zmin (tread h t)) as [mn|] eqn:Mn; cbn [bind]; try discriminate.
    destruct (zmax (tread h t)) as [mx|] eqn:Mx; cbn [bind]; try discriminate.
    intro H; inversion H; subst. constructor; cbn; auto.
    + intros _. exists t, mn, mx. auto.
    + discriminate.
  - intro H; inversion H; subst. auto.
Qed.

Lemma update_logicals_coh h o o' : coh h o -> update_logicals h o = Ok o' -> coh h o'.
Proof.
  intros C. pose proof C as [C1 C2 C3 C4 C5]. unfold update_logicals, get_fld.
  destruct (o_fupd o) as [[|]|] eqn:U; cbn [slot bind]; try discriminate.
  - destruct (o_sos o) as [t|] eqn:E; cbn [slot bind]; try discriminate.
    destruct (o_eos o) as [t'|] eqn:E'; cbn [slot bind]; try discriminate.
    intro H; inversion H; subst. constructor; cbn; auto.
    + intros _. exists t, t'. auto.
    + discriminate.
  - intro H; inversion H; subst. auto.
Qed.

Lemma read_coh h o g : coh h o -> coh h (snd (read h o g)).
Proof.
  intro C. destruct g; cbn [read snd]; auto;
  solve [unfold length_summary; destruct (update_lengths h o) eqn:E; cbn [snd]; auto; eapply update_lengths_coh; eauto
        |unfold flag_summary; destruct (update_logicals h o) eqn:E; cbn [snd]; auto; eapply update_logicals_coh; eauto].
Qed.

(** Assigning (or rewriting in place) an attribute. *)
Lemma set_fld_coh h h' o f t :
  coh h o ->
  (forall x, In x (reaches (Made o)) -> x <> t_base t -> nth x h' [] = nth x h []) ->
  (forall f' t', is_lens f' <> is_lens f -> get_fld o f' = Ok t' -> t_base t' <> t_base t) ->
  coh h' (set_fld o f t).
Proof.
  intros [C1 C2 C3 C4 C5] Hn Hk.
  assert (Kl : is_lens f = false -> forall tl, o_lens o = Some tl -> t_base tl <> t_base t).
  { intros Hf tl E. apply (Hk FLens tl); [rewrite Hf; discriminate|]. unfold get_fld. rewrite E. reflexivity. }
  assert (Ks : is_lens f = true -> forall ts, o_sos o = Some ts \/ o_eos o = Some ts -> t_base ts <> t_base t).
  { intros Hf ts [E|E].
    - apply (Hk FSos ts); [rewrite Hf; discriminate|]. unfold get_fld. rewrite E. reflexivity.
    - apply (Hk FEos ts); [rewrite Hf; discriminate|]. unfold get_fld. rewrite E. reflexivity. }
  assert (Rl : is_lens f = false -> forall tl, o_lens o = Some tl -> tread h' tl = tread h tl).
  { intros Hf tl E. apply tread_cell. apply Hn; [|auto]. cbn [reaches]. rewrite E, !in_app_iff. cbn. auto. }
  assert (Rs : is_lens f = true -> forall ts, o_sos o = Some ts \/ o_eos o = Some ts -> tread h' ts = tread h ts).
  { intros Hf ts E. apply tread_cell. apply Hn; [|auto]. cbn [reaches]. rewrite !in_app_iff.
    destruct E as [E|E]; rewrite E; cbn; auto. }
  destruct f; cbn [set_fld is_lens] in *; constructor; cbn; auto; try discriminate.
  - intro U. destruct (C1 U) as (tl & mn & mx & H1 & H2 & H3 & H4). exists tl, mn, mx. rewrite Rl; auto.
  - intros tl ts E [Ht|Ht]; [inversion Ht; subst|eauto]. intro B. symmetry in B. revert B. apply Kl; auto.
  - intro U. destruct (C1 U) as (tl & mn & mx & H1 & H2 & H3 & H4). exists tl, mn, mx. rewrite Rl; auto.
  - intros tl ts E [Ht|Ht]; [eauto|inversion Ht; subst]. intro B. symmetry in B. revert B. apply Kl; auto.
  - intro U. destruct (C2 U) as (ts & te & H1 & H2 & H3). exists ts, te. rewrite (Rs eq_refl ts), (Rs eq_refl te); auto.
  - intros tl ts E Ht. inversion E; subst. apply Ks; auto.
Qed.

Lemma In_zfold_min l a : In (fold_left Z.min l a) (a :: l) /\ forall x, In x (a :: l) -> (fold_left Z.min l a <= x)%Z.
Proof.
  revert a. induction l as [|b l IH]; intros a; cbn [fold_left].
  - split; [left; reflexivity|]. intros x [<-|[]]. lia.
  - destruct (IH (Z.min a b)) as [I1 I2]. split.
    + destruct I1 as [I1|I1]; [|right; right; auto]. rewrite <- I1. destruct (Z.min_spec a b) as [[_ ->]|[_ ->]]; cbn; auto.
    + intros x [<-|[<-|Hx]].
      * specialize (I2 _ (or_introl eq_refl)). lia.
      * specialize (I2 _ (or_introl eq_refl)). lia.
      * apply I2. right. auto.
Qed.

Lemma In_zfold_max l a : In (fold_left Z.max l a) (a :: l) /\ forall x, In x (a :: l) -> (x <= fold_left Z.max l a)%Z.
Proof.
  revert a. induction l as [|b l IH]; intros a; cbn [fold_left].
  - split; [left; reflexivity|]. intros x [<-|[]]. lia.
  - destruct (IH (Z.max a b)) as [I1 I2]. split.
    + destruct I1 as [I1|I1]; [|right; right; auto]. rewrite <- I1. destruct (Z.max_spec a b) as [[_ ->]|[_ ->]]; cbn; auto.
    + intros x [<-|[<-|Hx]].
      * specialize (I2 _ (or_introl eq_refl)). lia.
      * specialize (I2 _ (or_introl eq_refl)). lia.
      * apply I2. right. auto.
Qed.

Lemma all_true_In l : all_true l = true <-> ~ In false l.
Proof.
  unfold all_true. rewrite forallb_forall. split.
  - intros H K. specialize (H _ K). discriminate.
  - intros H x Hx. destruct x; auto.
Qed.

(** What is read through coherent caches. *)
Lemma coh_read_lens h o l :
  coh h o -> fst (read h o GLens) = Ok (OInts l) ->
  (l = [] -> fst (read h o GMin) = Err RuntimeError /\ fst (read h o GMax) = Err RuntimeError) /\
  (l <> [] -> exists mn mx, fst (read h o GMin) = Ok (OInt mn) /\ fst (read h o GMax) = Ok (OInt mx) /\
                            is_min mn l /\ is_max mx l).
Proof.
  intros [C1 C2 C3 C4 C5] H. cbn [read fst] in *. unfold get_fld in H.
  destruct (o_lens o) as [t|] eqn:E; cbn [slot bind] in H; [|discriminate]. inversion H as [Hl].
  assert (K : (forall m, zmin (tread h t) = Ok m -> is_min m (tread h t)) /\
              (forall m, zmax (tread h t) = Ok m -> is_max m (tread h t))).
  { destruct (tread h t) as [|a v]; cbn [zmin zmax]; split; intros m Hm; inversion Hm; subst.
    - apply In_zfold_min.
    - apply In_zfold_max. }
  destruct K as [K1 K2].
  unfold length_summary, update_lengths, get_fld. rewrite E.
  destruct (o_lupd o) as [[|]|] eqn:U; cbn [slot bind].
  - rewrite Hl in *. split.
    + intros ->. cbn. auto.
    + intro N. destruct l as [|a v]; [congruence|]. cbn [zmin zmax bind fst o_mm slot] in *.
      eexists. eexists. split; [reflexivity|]. split; [reflexivity|]. auto.
  - destruct (C1 eq_refl) as (t' & mn & mx & H1 & H2 & H3 & H4). inversion H1; subst t'. rewrite H2. cbn [slot bind fst snd].
    rewrite Hl in *. split.
    + intros ->. discriminate.
    + intros _. exists mn, mx. auto.
  - exfalso. apply C4; [discriminate|reflexivity].
Qed.

Lemma coh_read_flags h o ss es :
  coh h o -> fst (read h o GSos) = Ok (OBools ss) -> fst (read h o GEos) = Ok (OBools es) ->
     says (fst (read h o GAnyStarting)) (In true ss) /\
     says (fst (read h o GAnyEnding)) (In true es) /\
     says (fst (read h o GAllStarting)) (~ In false ss) /\
     says (fst (read h o GAllEnding)) (~ In false es) /\
     says (fst (read h o GAnyStartingOrEnding)) (In true ss \/ In true es) /\
     says (fst (read h o GAllStartingAndEnding)) (~ In false ss /\ ~ In false es).
Proof.
  intros [C1 C2 C3 C4 C5] Hs He. cbn [read fst] in *. unfold get_fld in Hs, He.
  destruct (o_sos o) as [t|] eqn:E; cbn [slot bind] in Hs; [|discriminate]. inversion Hs as [Hs'].
  destruct (o_eos o) as [t'|] eqn:E'; cbn [slot bind] in He; [|discriminate]. inversion He as [He'].
  assert (Q : exists o', update_logicals h o = Ok o' /\ o_fl o' = Some (flags_of ss es)).
  { unfold update_logicals, get_fld. destruct (o_fupd o) as [[|]|] eqn:U; cbn [slot bind].
    - rewrite E, E'. cbn [slot bind]. rewrite Hs', He'. eexists. split; [reflexivity|]. reflexivity.
    - destruct (C2 eq_refl) as (ts & te & H1 & H2 & H3). exists o. split; [reflexivity|].
      inversion H1; inversion H2; subst ts te. rewrite H3, Hs', He'. reflexivity.
    - exfalso. apply C5; [discriminate|reflexivity]. }
  destruct Q as (o' & Q1 & Q2). unfold flag_summary. rewrite Q1, Q2. unfold flags_of. cbn [slot bind fst].
  unfold says. rewrite Hs', He'.
  split; [exists (any_true ss); split; [reflexivity|apply any_true_In]|].
  split; [exists (any_true es); split; [reflexivity|apply any_true_In]|].
  split; [exists (all_true ss); split; [reflexivity|apply all_true_In]|].
  split; [exists (all_true es); split; [reflexivity|apply all_true_In]|].
  split; [exists (any_true ss || any_true es)%bool; split;
          [reflexivity|rewrite orb_true_iff, !any_true_In; reflexivity]|].
  exists (all_true ss && all_true es)%bool; split; [reflexivity|rewrite andb_true_iff, !all_true_In; reflexivity].
Qed.

Lemma coherent_made s p o : nth_error (st_prox s) p = Some (Made o) -> coh (st_heap s) o -> coherent s p.
Proof.
  intros H C. unfold coherent. split.
  - intros l. rewrite !(sees_made s p _ o H). apply coh_read_lens. exact C.
  - intros ss es. rewrite !(sees_made s p _ o H). apply coh_read_flags. exact C.
Qed.

Lemma touch_cok s p pr :
  legal s -> nth_error (st_prox s) p = Some pr -> cok (st_heap s) pr ->
  exists o, nth_error (st_prox (snd (touch s p))) p = Some (Made o) /\ coh (st_heap (snd (touch s p))) o /\
    (forall o', fst (touch s p) = Ok o' -> o' = o).
Proof.
  intros L H C. unfold touch. rewrite H. pose proof (nth_error_some_lt _ _ _ H) as Hlt. destruct pr as [a|o].
  - destruct (init_obj (st_heap s) a) as [[o h]|e] eqn:E; cbn [fst snd put st_prox st_heap].
    + exists o. rewrite nth_error_list_set_eq by auto. split; [reflexivity|]. split; [|intros; congruence].
      apply init_obj_made in E as (_ & s1 & e1 & l1 & -> & _ & _ & _ & _ & _ & _ & _ & B).
      destruct B as [B1 B2]; [exact C| |].
      { intros x Hx. apply (L (Pending a)); auto. eapply nth_error_In; eauto. }
      apply coh_fresh; auto.
    + exists bare. rewrite nth_error_list_set_eq by auto. split; [reflexivity|]. split; [apply coh_bare|discriminate].
  - exists o. cbn. split; [auto|]. split; [auto|]. intros; congruence.
Qed.

Lemma coherent_cok s p pr :
  legal s -> nth_error (st_prox s) p = Some pr -> cok (st_heap s) pr -> coherent s p.
Proof.
  intros L H C. destruct (touch_cok s p pr L H C) as (o & Ho & Co & Eo).
  assert (T : forall g, sees s p g = match fst (touch s p) with
               | Ok _ => sees (snd (touch s p)) p g | Err e => Err e end).
  { intro g. rewrite (sees_made _ _ g o Ho), sees_touch. destruct (fst (touch s p)) as [o'|e]; [|reflexivity].
    rewrite (Eo o' eq_refl). reflexivity. }
  pose proof (coherent_made _ _ _ Ho Co) as K. unfold coherent in *.
  destruct (fst (touch s p)) as [o'|e].
  - split; intros; rewrite !T in *; apply K; auto.
  - split; intros; rewrite !T in *; discriminate.
Qed.

Lemma get_fld_sep h o f f' t t' :
  coh h o -> is_lens f' <> is_lens f -> get_fld o f = Ok t -> get_fld o f' = Ok t' -> t_base t' <> t_base t.
Proof.
  intros [_ _ C _ _] N H H'. unfold get_fld in *.
  destruct f, f'; cbn [is_lens] in N; try congruence;
    destruct (o_sos o) as [a|] eqn:Es, (o_eos o) as [b|] eqn:Ee, (o_lens o) as [c|] eqn:El; cbn in H, H'; try discriminate;
    inversion H; inversion H'; subst; try (apply (C t t'); auto; fail);
    intro B; symmetry in B; revert B; apply (C t' t); auto.
Qed.

(** Assigning a tensor in place or by name keeps the invariant. *)
Lemma own_step_cok s p pr c :
  legal s -> nth_error (st_prox s) p = Some pr -> cok (st_heap s) pr -> setter_op p c ->
  legal (snd (step s c)) /\
  exists pr', nth_error (st_prox (snd (step s c))) p = Some pr' /\ cok (st_heap (snd (step s c))) pr'.
Proof.
  intros L H C Hc.
  set (sides := repeat false (length (st_prox s))).
  assert (Hl : length (st_prox s) = length sides) by (unfold sides; rewrite repeat_length; auto).
  assert (Hside : nth_error sides p = Some false) by (apply nth_error_repeat; eapply nth_error_some_lt; eauto).
  assert (Hown : owned sides false c).
  { intros q Hq. destruct c as [i xs xe xl|q0 g|q0 f x|q0 f g x|q0 f x|q0 f g x|q0|q0|q0 lo hi];
      cbn [setter_op objs] in Hc, Hq; try contradiction.
    - destruct Hq as [<-|[]]. subst; auto.
    - destruct x as [v n|q' f']; cbn [src_objs] in Hq.
      + destruct Hq as [<-|[]]. subst; auto.
      + destruct Hc as (-> & -> & _). destruct Hq as [<-|[<-|[]]]; auto.
    - destruct Hq as [<-|[]]. subst; auto.
    - destruct Hq as [<-|[]], Hc as [-> _]. auto.
    - destruct Hq as [<-|[]], Hc as [-> _]. auto. }
  split; [exact (Eff_legal sides false _ s _ Hl L (step_Eff sides false s c Hl Hown))|].
  destruct (touch_cok s p pr L H C) as (o & Ho & Co & Eo).
  pose proof (touch_good sides s p false (mkGood _ _ Hl L) Hside) as [_ Lt].
  assert (P : forall h o', coh h o' -> exists pr', nth_error (st_prox (put (mkSt h (st_prox (snd (touch s p)))) p o')) p = Some pr' /\
              cok h pr').
  { intros h o' Co'. exists (Made o'). cbn [put st_prox].
    rewrite nth_error_list_set_eq by (eapply nth_error_some_lt; eauto). auto. }
  assert (W : forall f t v, get_fld o f = Ok t -> coh (twrite (st_heap (snd (touch s p))) t v) (set_fld o f t)).
  { intros f t v Ef. eapply set_fld_coh; [exact Co| |].
    - intros x _ N. apply twrite_other. auto.
    - intros f' t' N E'. eapply get_fld_sep; eauto. }
  assert (SA : forall f x, exists pr', nth_error (st_prox (snd (set_at (snd (touch s p)) p o f x))) p = Some pr' /\
                            cok (st_heap (snd (set_at (snd (touch s p)) p o f x))) pr').
  { intros f x. unfold set_at.
    assert (I : exists pr', nth_error (st_prox (snd (touch s p))) p = Some pr' /\ cok (st_heap (snd (touch s p))) pr').
    { exists (Made o). auto. }
    destruct (get_fld o FLens) as [tl|] eqn:E1; cbn [bind]; [|exact I].
    destruct (get_fld o f) as [tm|] eqn:E2; cbn [bind]; [|exact I].
    destruct (tensor_mask _ _) as [sel|]; cbn [bind]; [|exact I].
    destruct (broadcast _ _) as [w|]; [|exact I].
    cbn [snd]. apply P. apply W. exact E1. }
  destruct c as [i xs xe xl|q0 g|q0 f x|q0 f g x|q0 f x|q0 f g x|q0|q0|q0 lo hi]; cbn [setter_op] in Hc; try contradiction.
  - subst q0. cbn [step].
    destruct (touch s p) as [[o1|e] s1]; cbn [fst snd] in *; [|exists (Made o); auto].
    rewrite (Eo o1 eq_refl). clear o1 Eo.
    destruct (read (st_heap s1) o g) as [r o'] eqn:Er. cbn [snd].
    destruct s1 as [h1 pr1]. apply (P h1).
    replace o' with (snd (read h1 o g)) by (cbn [st_heap] in Er; rewrite Er; reflexivity).
    apply read_coh. auto.
  - destruct x as [v n|q' f'].
    + subst q0. cbn [step source talloc].
      assert (Lv : legal (mkSt (st_heap s ++ [v]) (st_prox s))).
      { intros pr1 x Hin Hx. cbn [st_heap]. rewrite app_length. cbn [st_prox] in Hin.
        pose proof (L pr1 x Hin Hx). lia. }
      assert (Cv : cok (st_heap s ++ [v]) pr).
      { destruct pr as [a|o1]; [exact C|]. cbn [cok] in *. eapply coh_heap; [|exact C].
        intros x Hx. apply nth_app_old. apply (L (Made o1)); auto. eapply nth_error_In; eauto. }
      destruct (touch_cok (mkSt (st_heap s ++ [v]) (st_prox s)) p pr Lv H Cv) as (o2 & Ho2 & Co2 & Eo2).
      assert (Lt2 : forall x, In x (reaches (Made o2)) -> x <> length (st_heap s)).
      { intros x Hx E. subst x.
        (* the new storage is not reachable from p *)
        revert Hx. unfold touch in Ho2. cbn [st_prox] in Ho2. rewrite H in Ho2.
        pose proof (nth_error_some_lt _ _ _ H) as Hlt.
        destruct pr as [a|o1].
        - cbn [st_heap] in Ho2. destruct (init_obj (st_heap s ++ [v]) a) as [[o3 h3]|e3] eqn:E3; cbn [snd put st_prox] in Ho2;
            rewrite nth_error_list_set_eq in Ho2 by auto; inversion Ho2; subst o2.
          + apply init_obj_made in E3 as (_ & x1 & x2 & x3 & _ & _ & _ & B & _).
            intro Hx. destruct (B _ Hx) as [[_ B1]|B1].
            * assert (length (st_heap s) < length (st_heap s)); [|lia].
              apply (L (Pending a)); auto. eapply nth_error_In; eauto.
            * rewrite app_length in B1. cbn in B1. lia.
          + intros [].
        - cbn [snd st_prox] in Ho2. assert (o1 = o2) by congruence. subst o2. intro Hx.
          assert (length (st_heap s) < length (st_heap s)); [|lia].
          apply (L (Made o1)); auto. eapply nth_error_In; eauto. }
      cbn [st_heap st_prox].
      destruct (touch (mkSt (st_heap s ++ [v]) (st_prox s)) p) as [[o1|e] s1]; cbn [fst snd] in *; [|exists (Made o2); auto].
      rewrite (Eo2 o1 eq_refl). clear o1 Eo2.
      eexists. cbn [put st_prox]. rewrite nth_error_list_set_eq by (eapply nth_error_some_lt; eauto).
      split; [reflexivity|]. cbn [put st_heap cok]. eapply set_fld_coh; [exact Co2| |].
      * auto.
      * intros f' t' _ E'. cbn [t_base]. apply Lt2. eapply get_fld_reaches; eauto.
    + destruct Hc as (-> & -> & Hf). cbn [step source].
      destruct (touch s p) as [[o1|e] s1] eqn:Et; cbn [fst snd] in *; [|exists (Made o); auto].
      rewrite (Eo o1 eq_refl). clear o1 Eo Et.
      destruct (get_fld o f') as [t|e] eqn:Ef; cbn [snd]; [|exists (Made o); auto].
      unfold touch. rewrite Ho. cbn [snd].
      destruct s1 as [h1 pr1]. apply (P h1). cbn [st_heap] in *.
      eapply set_fld_coh; [exact Co|auto|].
      intros f2 t2 N E2. apply (get_fld_sep h1 o f' f2 t t2); auto. congruence.
  - subst q0. cbn [step].
    destruct (touch s p) as [[o1|e] s1]; cbn [fst snd] in *; [|exists (Made o); auto].
    rewrite (Eo o1 eq_refl). clear o1 Eo.
    destruct (get_fld o f) as [t|e] eqn:Ef; [|exists (Made o); auto].
    destruct (elementwise _ _ _) as [v|e]; [|exists (Made o); auto].
    cbn [snd]. apply P. apply W. exact Ef.
  - destruct Hc as [-> _]. cbn [step].
    destruct (touch s p) as [[o1|e] s1]; cbn [fst snd] in *; [|exists (Made o); auto].
    rewrite (Eo o1 eq_refl). apply SA.
  - destruct Hc as [-> _]. cbn [step].
    destruct (touch s p) as [[o1|e] s1]; cbn [fst snd] in *; [|exists (Made o); auto].
    rewrite (Eo o1 eq_refl).
    destruct (masked_lengths _ _ _) as [v|e]; cbn [bind]; [|exists (Made o); auto].
    destruct (elementwise _ _ _) as [w|e]; [|exists (Made o); auto].
    apply SA.
Qed.

Lemma coherent_history s i sv sn ev en lv ln cs :
  reachable s -> let p := length (st_prox s) in
  Forall (setter_op p) cs ->
  coherent (after s (Create i (New sv sn) (New ev en) (New lv ln) :: cs)) p.
Proof.
  intros R p F. pose proof (reachable_good s R) as G.
  destruct (create_state s i sv sn ev en lv ln) as (h & E & Eh).
  unfold after. cbn [run]. rewrite E.
  set (a := mkArgs _ _ _ _ false) in *.
  assert (L : legal (mkSt h (st_prox s ++ [Pending a]))).
  { pose proof (step_good (repeat false (length (st_prox s))) false s (Create i (New sv sn) (New ev en) (New lv ln)) G) as G1.
    rewrite E in G1. cbn [snd] in G1. apply G1. intros q []. }
  assert (H : nth_error (st_prox s ++ [Pending a]) p = Some (Pending a)).
  { unfold p. rewrite nth_error_app2, Nat.sub_diag by lia. reflexivity. }
  assert (C : cok h (Pending a)).
  { cbn [cok]. right. unfold a. cbn [a_sos a_eos a_lens t_base]. lia. }
  clearbody a p. set (s1 := mkSt h (st_prox s ++ [Pending a])) in *.
  assert (I : legal s1 /\ exists pr, nth_error (st_prox s1) p = Some pr /\ cok (st_heap s1) pr)
    by (split; [exact L|exists (Pending a); auto]).
  clearbody s1. clear - F I.
  assert (K : legal (snd (run s1 cs)) /\ exists pr, nth_error (st_prox (snd (run s1 cs))) p = Some pr /\ cok (st_heap (snd (run s1 cs))) pr).
  { revert s1 I. induction F as [|c cs Hc F IH]; intros s1 I; [exact I|].
    destruct I as (L & pr & H & C).
    pose proof (own_step_cok s1 p pr c L H C Hc) as I1. cbn [run].
    destruct (step s1 c) as [r s2]. specialize (IH s2 I1). destruct (run s2 cs). exact IH. }
  destruct (run s1 cs) as [rs s2]. cbn [snd] in *.
  destruct K as (L & pr & H & C). eapply coherent_cok; eauto.
Qed.

(** Proofs about Lazy.v: isolation between groups of objects, snapshots, cache coherence, rejected arguments. *)

From Coq Require Import String List ZArith Bool Lia.
From Verif Require Import Py MetaSplitProofs Lazy LazySpec LazyProofs.
Import ListNotations.
Open Scope nat_scope.

(* ------------------------------------------------------------------ invariants *)

(** Nothing that group [b] may write is readable through the other group. *)
Definition apart (sides : list bool) (s : state) (b : bool) : Prop :=
  forall x, side_w sides s b x -> side_r sides s (negb b) x -> False.
(** No storage is writable by both groups. *)
Definition apart_w (sides : list bool) (s : state) : Prop :=
  forall x, side_w sides s true x -> side_w sides s false x -> False.

Lemma legal_side_r sides s t x : legal s -> side_r sides s t x -> x < length (st_heap s).
Proof. intros L (p & pr & _ & H2 & H3). apply (L pr x); auto. eapply nth_error_In; eauto. Qed.

Lemma extra_of_cases t r : extra_of t r = [] \/ extra_of t r = [t].
Proof. destruct r as [[| | | | | |]|]; cbn; auto. Qed.

Lemma repeat_app_1 {A} (a : A) n : repeat a (1 + n) = repeat a n ++ [a].
Proof. induction n; cbn; [reflexivity|]. cbn in IHn. congruence. Qed.

Lemma extra_other t r sides q :
  nth_error (sides ++ extra_of t r) q = Some (negb t) -> nth_error sides q = Some (negb t).
Proof.
  intro H. destruct (Nat.lt_ge_cases q (length sides)) as [L|L].
  - rewrite nth_error_app1 in H; auto.
  - rewrite nth_error_app2 in H by auto. destruct r as [[| | | | | |]|]; cbn [extra_of] in H;
      destruct (q - length sides) as [|[|]]; cbn in H; try discriminate.
    inversion H. destruct t; discriminate.
Qed.

Lemma Eff_legal sides t r s s' :
  length (st_prox s) = length sides -> legal s -> Eff sides (sides ++ extra_of t r) t s s' -> legal s'.
Proof.
  intros Hl L [E1 E2 E3 E4 E5 E6] pr x Hin Hx.
  apply In_nth_error in Hin as [q Hq].
  assert (Hs : exists b, nth_error (sides ++ extra_of t r) q = Some b).
  { destruct (nth_error (sides ++ extra_of t r) q) eqn:E; eauto.
    apply nth_error_None in E. apply nth_error_some_lt in Hq. lia. }
  destruct Hs as [b Hb]. destruct (bool_dec b t) as [->|Hbt].
  - destruct (E3 x) as [|Hr]; [exists q, pr; auto|lia|].
    apply legal_side_r in Hr; auto. lia.
  - assert (b = negb t) as -> by (destruct b, t; cbn; congruence).
    apply extra_other in Hb. rewrite E2 in Hq by auto.
    assert (x < length (st_heap s)) by (apply (L pr x); auto; eapply nth_error_In; eauto). lia.
Qed.

Lemma Eff_other_r sides t r s s' x :
  Eff sides (sides ++ extra_of t r) t s s' -> side_r (sides ++ extra_of t r) s' (negb t) x -> side_r sides s (negb t) x.
Proof.
  intros E (q & pr & Q1 & Q2 & Q3). apply extra_other in Q1. rewrite (e_other _ _ _ _ _ E) in Q2 by auto.
  exists q, pr. auto.
Qed.

Lemma Eff_other_w sides t r s s' x :
  Eff sides (sides ++ extra_of t r) t s s' -> side_w (sides ++ extra_of t r) s' (negb t) x -> side_w sides s (negb t) x.
Proof.
  intros E (q & pr & Q1 & Q2 & Q3). apply extra_other in Q1. rewrite (e_other _ _ _ _ _ E) in Q2 by auto.
  exists q, pr. auto.
Qed.

Lemma Eff_apart sides t r s s' b :
  legal s -> Eff sides (sides ++ extra_of t r) t s s' -> apart sides s b -> apart (sides ++ extra_of t r) s' b.
Proof.
  intros L E D x Hw Hr. destruct (bool_dec b t) as [->|Hbt].
  - apply (Eff_other_r _ _ _ _ _ _ E) in Hr. pose proof (legal_side_r _ _ _ _ L Hr).
    destruct (e_w _ _ _ _ _ E x Hw); [lia|]. exact (D x H0 Hr).
  - assert (b = negb t) as -> by (destruct b, t; cbn; congruence). rewrite negb_involutive in *.
    apply (Eff_other_w _ _ _ _ _ _ E) in Hw.
    pose proof (legal_side_r _ _ _ _ L (side_w_r _ _ _ _ Hw)).
    destruct (e_r _ _ _ _ _ E x Hr); [lia|]. apply (D x); auto. rewrite negb_involutive. auto.
Qed.

Lemma Eff_apart_w sides t r s s' :
  legal s -> Eff sides (sides ++ extra_of t r) t s s' -> apart_w sides s -> apart_w (sides ++ extra_of t r) s'.
Proof.
  intros L E D x Ht Hf.
  assert (K : side_w (sides ++ extra_of t r) s' t x -> side_w (sides ++ extra_of t r) s' (negb t) x -> False).
  { intros H1 H2. apply (Eff_other_w _ _ _ _ _ _ E) in H2.
    pose proof (legal_side_r _ _ _ _ L (side_w_r _ _ _ _ H2)).
    destruct (e_w _ _ _ _ _ E x H1); [lia|]. destruct t; cbn in *; apply (D x); auto. }
  destruct t; cbn in *; auto.
Qed.

(* ------------------------------------------------------------------ what is seen is local *)

Definition agree (h : heap) (o : obj) (h' : heap) (o' : obj) : Prop :=
  o_ids o = o_ids o' /\
  option_map (tread h) (o_sos o) = option_map (tread h') (o_sos o') /\
  option_map (tread h) (o_eos o) = option_map (tread h') (o_eos o') /\
  option_map (tread h) (o_lens o) = option_map (tread h') (o_lens o') /\
  o_mm o = o_mm o' /\ o_lupd o = o_lupd o' /\ o_fl o = o_fl o' /\ o_fupd o = o_fupd o'.

Lemma read_agree h o h' o' g : agree h o h' o' -> fst (read h o g) = fst (read h' o' g).
Proof.
  destruct o as [i s e l mm lu fl fu], o' as [i' s' e' l' mm' lu' fl' fu'].
  intros (E1 & E2 & E3 & E4 & E5 & E6 & E7 & E8); cbn in *. subst i' mm' lu' fl' fu'.
  destruct s as [s|], s' as [s'|]; cbn in E2; try discriminate;
  destruct e as [e|], e' as [e'|]; cbn in E3; try discriminate;
  destruct l as [l|], l' as [l'|]; cbn in E4; try discriminate;
  try (injection E2 as E2); try (injection E3 as E3); try (injection E4 as E4);
  destruct g; cbn [read fst length_summary flag_summary];
  unfold masked_lengths, length_summary, flag_summary, update_lengths, update_logicals, get_fld;
  cbn [o_ids o_sos o_eos o_lens o_mm o_lupd o_fl o_fupd slot bind];
  rewrite ?E2, ?E3, ?E4; try reflexivity;
  try (destruct lu as [[|]|]; cbn; try reflexivity;
       destruct (zmin _); cbn; try reflexivity; destruct (zmax _); cbn; reflexivity);
  try (destruct fu as [[|]|]; cbn; reflexivity).
Qed.

Lemma sees_made s p g o : nth_error (st_prox s) p = Some (Made o) -> sees s p g = fst (read (st_heap s) o g).
Proof.
  intro H. unfold sees. cbn [step]. unfold touch. rewrite H.
  destruct (read (st_heap s) o g). reflexivity.
Qed.

Lemma sees_pending s p g a : nth_error (st_prox s) p = Some (Pending a) ->
  sees s p g = match init_obj (st_heap s) a with
               | Ok (o, h) => fst (read h o g)
               | Err e => Err e
               end.
Proof.
  intro H. unfold sees. cbn [step]. unfold touch. rewrite H.
  destruct (init_obj (st_heap s) a) as [[o h]|e]; [|reflexivity].
  cbn [put st_heap]. destruct (read h o g). reflexivity.
Qed.

Lemma init_obj_err h a e : init_obj h a = Err e -> e = ValueError /\ ~ cons_args a.
Proof.
  destruct (init_obj_cases h a) as [[C E]|[_ (s & e' & l & h1 & h2 & h3 & E & _)]]; intro H; [|congruence].
  split; [congruence|auto].
Qed.

Lemma init_obj_bad h a : ~ cons_args a -> init_obj h a = Err ValueError.
Proof.
  destruct (init_obj_cases h a) as [[C E]|[C _]]; [auto|tauto].
Qed.

Lemma init_obj_good h a : cons_args a -> exists o h', init_obj h a = Ok (o, h').
Proof.
  destruct (init_obj_cases h a) as [[C E]|[C (s & e' & l & h1 & h2 & h3 & E & _)]]; [tauto|eauto].
Qed.

Lemma sees_local s s' q pr g :
  nth_error (st_prox s) q = Some pr -> nth_error (st_prox s') q = Some pr ->
  (forall x, In x (reaches pr) -> x < length (st_heap s) /\ x < length (st_heap s') /\
     nth x (st_heap s') [] = nth x (st_heap s) []) ->
  sees s' q g = sees s q g.
Proof.
  intros H H' C. destruct pr as [a|o].
  - rewrite (sees_pending s q g a), (sees_pending s' q g a) by auto.
    destruct (init_obj (st_heap s) a) as [[o h]|e] eqn:E.
    + destruct (init_obj_made _ _ _ _ E) as (K & s1 & e1 & l1 & Eo & _ & _ & _ & V & _).
      destruct (init_obj_good (st_heap s') a K) as (o' & h' & E').
      destruct (init_obj_made _ _ _ _ E') as (_ & s2 & e2 & l2 & Eo' & _ & _ & _ & V' & _).
      rewrite E'. apply read_agree. subst o o'.
      destruct V as (_ & V1 & V2 & V3); [intros; apply C; auto|].
      destruct V' as (_ & V1' & V2' & V3'); [intros; apply C; auto|].
      repeat split; cbn [fresh_obj o_sos o_eos o_lens option_map]; f_equal.
      * rewrite V1, V1'. apply tread_cell. apply C. cbn. auto.
      * rewrite V2, V2'. apply tread_cell. apply C. cbn. auto.
      * rewrite V3, V3'. apply tread_cell. apply C. cbn. auto.
    + apply init_obj_err in E as [-> K]. rewrite init_obj_bad by auto. reflexivity.
  - rewrite (sees_made s q g o), (sees_made s' q g o) by auto.
    apply read_agree. destruct o as [i s1 e1 l1 mm lu fl fu]. cbn [reaches o_sos o_eos o_lens] in C.
    repeat split; cbn [o_sos o_eos o_lens].
    + destruct s1; cbn; f_equal. apply tread_cell. apply C. cbn. auto.
    + destruct e1; cbn; f_equal. apply tread_cell. apply C. rewrite !in_app_iff. cbn. auto.
    + destruct l1; cbn; f_equal. apply tread_cell. apply C. rewrite !in_app_iff. cbn. auto.
Qed.

(** One operation of group [t] does not change what the other group sees. *)
Lemma step_isolated sides t s c q g :
  length (st_prox s) = length sides -> legal s -> apart sides s t -> owned sides t c ->
  nth_error sides q = Some (negb t) ->
  sees (snd (step s c)) q g = sees s q g.
Proof.
  intros Hl L D Ho Hq.
  pose proof (step_Eff sides t s c Hl Ho) as E.
  assert (exists pr, nth_error (st_prox s) q = Some pr) as [pr Hpr].
  { destruct (nth_error (st_prox s) q) eqn:N; eauto.
    apply nth_error_None in N. apply nth_error_some_lt in Hq. lia. }
  apply sees_local with (pr := pr); auto.
  - rewrite (e_other _ _ _ _ _ E) by auto. exact Hpr.
  - intros x Hx.
    assert (R : side_r sides s (negb t) x) by (exists q, pr; auto).
    pose proof (legal_side_r _ _ _ _ L R). pose proof (e_grow _ _ _ _ _ E).
    split; [auto|]. split; [lia|]. apply (e_heap _ _ _ _ _ E); auto.
    intro W. exact (D x W R).
Qed.

(** Facts kept along grouped histories. *)
Record good (sides : list bool) (s : state) : Prop := mkGood {
  g_len : length (st_prox s) = length sides;
  g_legal : legal s
}.

Lemma step_good sides t s c :
  good sides s -> owned sides t c -> good (sides ++ extra_of t (fst (step s c))) (snd (step s c)).
Proof.
  intros [G1 G2] Ho. pose proof (step_Eff sides t s c G1 Ho) as E. constructor.
  - apply (e_len _ _ _ _ _ E).
  - eapply Eff_legal; eauto.
Qed.

Lemma grouped_inv (I : list bool -> state -> Prop) sides s cs sides' s' :
  (forall sides b s c, good sides s -> I sides s -> owned sides b c -> In (b, c) cs ->
     I (sides ++ extra_of b (fst (step s c))) (snd (step s c))) ->
  good sides s -> I sides s -> grouped sides s cs sides' s' -> good sides' s' /\ I sides' s'.
Proof.
  intros Hstep G HI H. revert Hstep G HI.
  induction H as [sides s|sides s b c cs sides' s' r s1 extra Ho Es Er H IH]; intros Hstep G HI; [auto|].
  assert (extra = extra_of b r).
  { destruct r as [[| | | | | |]|]; cbn; auto. }
  subst extra. pose proof (step_good sides b s c G Ho) as G1.
  pose proof (Hstep sides b s c G HI Ho (or_introl eq_refl)) as I1.
  rewrite Es in G1, I1. cbn [fst snd] in *. apply IH; auto.
  intros. apply Hstep; auto. right. auto.
Qed.

Lemma grouped_apart b sides s cs sides' s' :
  good sides s -> apart sides s b -> grouped sides s cs sides' s' -> good sides' s' /\ apart sides' s' b.
Proof.
  intros G D H. refine (grouped_inv (fun sd st => apart sd st b) sides s cs sides' s' _ G D H).
  intros sd t st c Gs Ds Ho _. apply (Eff_apart sd t _ st); auto.
  - apply g_legal with sd; auto.
  - apply step_Eff; auto. apply Gs.
Qed.

(* ------------------------------------------------------------------ reachable states *)

Lemma good_empty : good [] empty_state.
Proof. constructor; [reflexivity|]. intros p x []. Qed.

Lemma reachable_good s : reachable s -> good (repeat false (length (st_prox s))) s.
Proof.
  intros (cs & sides & H).
  destruct (grouped_inv (fun sd _ => sd = repeat false (length sd)) [] empty_state (map (pair false) cs) sides s) as [G E]; auto.
  - intros sd b st c _ Hs _ Hin. apply in_map_iff in Hin as (c' & Hc & _). inversion Hc; subst b c'.
    destruct (extra_of_cases false (fst (step st c))) as [->| ->].
    + rewrite app_nil_r. auto.
    + rewrite app_length. cbn [length]. rewrite Nat.add_comm. rewrite repeat_app_1. congruence.
  - apply good_empty.
  - rewrite (g_len _ _ G). rewrite <- E. exact G.
Qed.

(* ------------------------------------------------------------------ clones *)

Lemma good_sides sides sides' s : good sides s -> length sides = length sides' -> good sides' s.
Proof. intros [H1 H2] H. constructor; auto. congruence. Qed.

Lemma touch_good sides s p t : good sides s -> nth_error sides p = Some t -> good sides (snd (touch s p)).
Proof.
  intros [G1 G2] Hp. destruct (Eff_touch sides t s s p (Eff_refl _ _ _ G1) Hp) as (E & _ & _).
  constructor; [apply (e_len _ _ _ _ _ E)|].
  apply (Eff_legal sides t (Ok OUnit) s); auto. cbn. rewrite app_nil_r. auto.
Qed.

Lemma sees_touch s p g :
  sees s p g = match fst (touch s p) with
               | Ok o => fst (read (st_heap (snd (touch s p))) o g)
               | Err e => Err e
               end.
Proof.
  unfold sees. cbn [step]. destruct (touch s p) as [[o|e] s1]; [|reflexivity]. cbn [fst snd].
  destruct (read (st_heap s1) o g). reflexivity.
Qed.

Definition agree_vals (h : heap) (o : obj) (h' : heap) (o' : obj) : Prop :=
  o_ids o = o_ids o' /\
  option_map (tread h) (o_sos o) = option_map (tread h') (o_sos o') /\
  option_map (tread h) (o_eos o) = option_map (tread h') (o_eos o') /\
  option_map (tread h) (o_lens o) = option_map (tread h') (o_lens o').


Lemma read_agree_vals h o h' o' g : plain g = true -> agree_vals h o h' o' -> fst (read h o g) = fst (read h' o' g).
Proof.
  intro Hg. destruct o as [i s e l mm lu fl fu], o' as [i' s' e' l' mm' lu' fl' fu'].
  intros (E1 & E2 & E3 & E4); cbn in *. subst i'.
  destruct s as [s|], s' as [s'|]; cbn in E2; try discriminate;
  destruct e as [e|], e' as [e'|]; cbn in E3; try discriminate;
  destruct l as [l|], l' as [l'|]; cbn in E4; try discriminate;
  try (injection E2 as E2); try (injection E3 as E3); try (injection E4 as E4);
  destruct g; try discriminate Hg; cbn [read fst];
  unfold masked_lengths, get_fld;
  cbn [o_ids o_sos o_eos o_lens o_mm o_lupd o_fl o_fupd slot bind];
  rewrite ?E2, ?E3, ?E4; reflexivity.
Qed.

Lemma exists_side s p g v : sees s p g = Ok v -> nth_error (repeat false (length (st_prox s))) p = Some false.
Proof.
  rewrite sees_touch. unfold touch. destruct (nth_error (st_prox s) p) eqn:E; [|discriminate].
  intros _. apply nth_error_repeat. eapply nth_error_some_lt; eauto.
Qed.

Lemma clone_values s p i ss es l :
  reachable s ->
  sees s p GIds = Ok (OIds i) -> sees s p GSos = Ok (OBools ss) -> sees s p GEos = Ok (OBools es) ->
  sees s p GLens = Ok (OInts l) ->
  length ss = length i -> length es = length i -> length l = length i ->
  exists s1, step s (Clone p) = (Ok (ONew (length (st_prox s))), s1) /\
    forall g, plain g = true -> sees s1 (length (st_prox s)) g = sees s p g.
Proof.
  intros R Hi Hs He Hl Ls Le Ll.
  pose proof (reachable_good s R) as G. pose proof (exists_side s p _ _ Hi) as Hp.
  pose proof (touch_good _ s p false G Hp) as G1.
  destruct (Eff_touch _ false s s p (Eff_refl _ _ _ (g_len _ _ G)) Hp) as (E & _ & M).
  rewrite sees_touch in Hi, Hs, He, Hl.
  cbn [step]. unfold derived.
  assert (Hg : forall g, sees s p g = match fst (touch s p) with
               | Ok o => fst (read (st_heap (snd (touch s p))) o g) | Err e => Err e end) by (intro; apply sees_touch).
  destruct (touch s p) as [[o|e] s0] eqn:Et; cbn [fst snd] in *; [|discriminate].
  specialize (M o eq_refl).
  destruct o as [oi os oe ol mm lu fl fu]. cbn [read fst o_ids get_fld slot o_sos o_eos o_lens] in Hi, Hs, He, Hl.
  destruct oi as [i'|]; cbn in Hi; [|discriminate]. inversion Hi; subst i'.
  destruct os as [os|]; cbn in Hs; [|discriminate].
  destruct oe as [oe|]; cbn in He; [|discriminate].
  destruct ol as [ol|]; cbn in Hl; [|discriminate].
  unfold derive. cbn [o_ids o_sos o_eos o_lens get_fld slot bind].
  assert (Lp : length (st_prox s0) = length (st_prox s)).
  { rewrite (g_len _ _ G1). rewrite repeat_length. reflexivity. }
  unfold push. rewrite Lp. eexists. split; [reflexivity|].
  intros g Pg. rewrite Hg.
  rewrite (sees_pending _ _ g (mkArgs i os oe ol true)).
  2:{ cbn [st_prox]. rewrite nth_error_app2 by lia. rewrite Lp, Nat.sub_diag. reflexivity. }
  cbn [st_heap].
  destruct (init_obj_good (st_heap s0) (mkArgs i os oe ol true)) as (o' & h' & Eo).
  { inversion Hs as [Hs']. inversion He as [He']. inversion Hl as [Hl'].
    unfold cons_args. cbn [a_ids a_sos a_eos a_lens]. subst ss es l.
    unfold tread in *. rewrite !map_length in Ls. rewrite !map_length in Le. rewrite !map_length in Ll. split; [|split]; congruence. }
  rewrite Eo. apply init_obj_made in Eo as (_ & s1 & e1 & l1 & -> & _ & _ & _ & V & _).
  destruct V as (_ & V1 & V2 & V3).
  { intros x Hx. apply (g_legal _ _ G1 (Made (mkObj (Some i) (Some os) (Some oe) (Some ol) mm lu fl fu))); auto.
    eapply nth_error_In; eauto. }
  cbn [a_sos a_eos a_lens] in *.
  apply read_agree_vals; [exact Pg|]. repeat split; cbn; congruence.
Qed.

(** Side [true] of [only_next s] is the new object. *)
Lemma only_next_true s q : nth_error (only_next s) q = Some true -> q = length (st_prox s).
Proof.
  unfold only_next. intro H. destruct (Nat.lt_ge_cases q (length (st_prox s))) as [L|L].
  - rewrite nth_error_app1 in H by (rewrite repeat_length; auto).
    rewrite nth_error_repeat in H by auto. discriminate.
  - rewrite nth_error_app2 in H by (rewrite repeat_length; auto). rewrite repeat_length in H.
    destruct (q - length (st_prox s)) as [|[|k]] eqn:E; cbn in H; try discriminate. lia.
Qed.

Lemma only_next_at s : nth_error (only_next s) (length (st_prox s)) = Some true.
Proof.
  unfold only_next. rewrite nth_error_app2 by (rewrite repeat_length; auto).
  rewrite repeat_length, Nat.sub_diag. reflexivity.
Qed.

Definition clone_facts s c s1 : Prop :=
  good (only_next s) s1 /\ c = length (st_prox s) /\
  exists a, nth_error (st_prox s1) c = Some (Pending a) /\ a_copy a = true.

Lemma clone_state s p c s1 :
  reachable s -> step s (Clone p) = (Ok (ONew c), s1) -> clone_facts s c s1.
Proof.
  intros R H. pose proof (reachable_good s R) as G.
  assert (Hp : nth_error (repeat false (length (st_prox s))) p = Some false).
  { cbn [step] in H. unfold derived, touch in H. destruct (nth_error (st_prox s) p) eqn:E; [|discriminate].
    apply nth_error_repeat. eapply nth_error_some_lt; eauto. }
  assert (Ho : owned (repeat false (length (st_prox s))) false (Clone p)).
  { intros q [<-|[]]. exact Hp. }
  pose proof (step_good _ false s (Clone p) G Ho) as G1. rewrite H in G1. cbn [fst snd extra_of] in G1.
  split; [|].
  - eapply good_sides; [exact G1|]. unfold only_next. rewrite !app_length. reflexivity.
  - pose proof (touch_good _ s p false G Hp) as G0.
    cbn [step] in H. unfold derived in H. destruct (touch s p) as [[o|e] s0] eqn:Et; [|discriminate].
    cbn [snd] in G0. pose proof (g_len _ _ G0) as L0. rewrite repeat_length in L0.
    destruct (derive o true _ _) as [a|e] eqn:Ed; [|discriminate].
    unfold push in H. inversion H; subst. split; [auto|]. exists a. cbn [st_prox].
    rewrite nth_error_app2, Nat.sub_diag by lia. split; [reflexivity|].
    unfold derive in Ed. repeat (destruct (slot _) || destruct (get_fld _ _); cbn [bind] in Ed; try discriminate).
    inversion Ed. reflexivity.
Qed.

Lemma clone_apart s c s1 : clone_facts s c s1 -> apart (only_next s) s1 true.
Proof.
  intros (_ & -> & a & Ha & Hc) x (q & pr & Q1 & Q2 & Q3) _.
  apply only_next_true in Q1. subst q. rewrite Ha in Q2. inversion Q2; subst.
  cbn [writes] in Q3. rewrite Hc in Q3. exact Q3.
Qed.

Lemma original_isolated s p c s1 cs sides' s2 d q g :
  reachable s -> step s (Clone p) = (Ok (ONew c), s1) ->
  grouped (only_next s) s1 cs sides' s2 ->
  owned sides' true d -> nth_error sides' q = Some false ->
  sees (snd (step s2 d)) q g = sees s2 q g.
Proof.
  intros R H Gr Ho Hq. pose proof (clone_state s p c s1 R H) as F.
  destruct (grouped_apart true _ _ _ _ _ (proj1 F) (clone_apart _ _ _ F) Gr) as [G D].
  apply (step_isolated sides' true); auto; apply G.
Qed.

Lemma touch_made s p pr : nth_error (st_prox s) p = Some pr ->
  exists o, nth_error (st_prox (snd (touch s p))) p = Some (Made o).
Proof.
  intro H. unfold touch. rewrite H. pose proof (nth_error_some_lt _ _ _ H).
  destruct pr as [a|o].
  - destruct (init_obj (st_heap s) a) as [[o h]|e]; cbn [snd put st_prox];
      rewrite nth_error_list_set_eq by auto; eauto.
  - cbn. eauto.
Qed.

Lemma get_made s p g pr : nth_error (st_prox s) p = Some pr ->
  exists o, nth_error (st_prox (snd (step s (Get p g)))) p = Some (Made o).
Proof.
  intro H. destruct (touch_made s p pr H) as [o Ho]. cbn [step].
  destruct (touch s p) as [[o1|e] s1]; cbn [snd] in *; [|eauto].
  destruct (read (st_heap s1) o1 g) as [r o2]. cbn [snd put st_prox].
  rewrite nth_error_list_set_eq by (eapply nth_error_some_lt; eauto). eauto.
Qed.

Lemma get_not_new s p g : extra_of true (fst (step s (Get p g))) = [].
Proof.
  cbn [step]. destruct (touch s p) as [[o|e] s1]; cbn [fst extra_of]; [|reflexivity].
  destruct (read (st_heap s1) o g) as [r o'] eqn:Er. cbn [fst].
  assert (r = fst (read (st_heap s1) o g)) as -> by (rewrite Er; reflexivity). clear.
  destruct g; cbn [read fst]; try (destruct (slot _) || destruct (get_fld _ _) || destruct (masked_lengths _ _ _));
        try reflexivity;
      (unfold length_summary; destruct (update_lengths (st_heap s1) o) as [o1|]; cbn [fst]; [|reflexivity];
         destruct (slot (o_mm o1)); reflexivity) ||
      (unfold flag_summary; destruct (update_logicals (st_heap s1) o) as [o1|]; cbn [fst]; [|reflexivity];
         destruct (slot (o_fl o1)); reflexivity).
Qed.

Lemma clone_isolated s p c s1 g0 cs sides' s2 d q g :
  reachable s -> step s (Clone p) = (Ok (ONew c), s1) ->
  grouped (only_next s) (snd (step s1 (Get c g0))) cs sides' s2 ->
  owned sides' false d -> nth_error sides' q = Some true ->
  sees (snd (step s2 d)) q g = sees s2 q g.
Proof.
  intros R H Gr Ho Hq. pose proof (clone_state s p c s1 R H) as F.
  destruct F as (G1 & Ec & a & Ha & Hcopy).
  assert (Hown : owned (only_next s) true (Get c g0)).
  { intros q' [<-|[]]. subst c. apply only_next_at. }
  pose proof (step_good _ true s1 _ G1 Hown) as G1'.
  pose proof (step_Eff _ true s1 _ (g_len _ _ G1) Hown) as E.
  rewrite get_not_new, app_nil_r in G1', E.
  destruct (get_made s1 c g0 _ Ha) as [o Hm].
  assert (D : apart (only_next s) (snd (step s1 (Get c g0))) false).
  { intros x Hw (q' & pr & Q1 & Q2 & Q3). cbn [negb] in Q1. apply only_next_true in Q1.
    rewrite <- Ec in Q1. rewrite Q1 in Q2. rewrite Hm in Q2. inversion Q2; subst pr.
    assert (W : side_w (only_next s) (snd (step s1 (Get c g0))) true x) by (exists c, (Made o); split; [rewrite Ec; apply only_next_at|auto]).
    destruct (e_w _ _ _ _ _ E x W) as [Hf|(q2 & pr2 & P1 & P2 & P3)].
    - destruct Hw as (q3 & pr3 & R1 & R2 & R3). rewrite (e_other _ _ _ _ _ E) in R2 by auto.
      apply writes_reaches in R3.
      assert (x < length (st_heap s1)); [|lia].
      apply (g_legal _ _ G1 pr3 x); auto. eapply nth_error_In; eauto.
    - apply only_next_true in P1. rewrite <- Ec in P1. rewrite P1 in P2. rewrite Ha in P2. inversion P2; subst pr2.
      cbn [writes] in P3. rewrite Hcopy in P3. exact P3. }
  destruct (grouped_apart false _ _ _ _ _ G1' D Gr) as [G D'].
  apply (step_isolated sides' false); auto; apply G.
Qed.

(* ---- operations that do not write in place keep all existing storages *)

Definition keeps (s s' : state) : Prop :=
  length (st_heap s) <= length (st_heap s') /\
  forall x, x < length (st_heap s) -> nth x (st_heap s') [] = nth x (st_heap s) [].

Lemma keeps_refl s : keeps s s.
Proof. split; auto. Qed.
Lemma keeps_trans a b c : keeps a b -> keeps b c -> keeps a c.
Proof. intros [H1 H2] [H3 H4]. split; [lia|]. intros x Hx. rewrite H4, H2 by lia. reflexivity. Qed.
Lemma keeps_heap s s' p : keeps s s' -> keeps s (mkSt (st_heap s') p).
Proof. intros [H1 H2]. split; auto. Qed.

Lemma keeps_touch s p : keeps s (snd (touch s p)).
Proof.
  unfold touch. destruct (nth_error (st_prox s) p) as [[a|o]|]; try apply keeps_refl.
  destruct (init_obj (st_heap s) a) as [[o h]|e] eqn:E; cbn [snd put].
  - apply init_obj_made in E as (_ & x1 & x2 & x3 & _ & G & N & _). split; cbn; auto.
  - split; cbn; auto.
Qed.

Lemma keeps_source s x : keeps s (snd (source s x)).
Proof.
  destruct x as [l n|q f]; cbn [source].
  - cbn. split; cbn; [rewrite app_length; lia|]. intros. apply nth_app_old; auto.
  - pose proof (keeps_touch s q). destruct (touch s q) as [[o|e] s1]; auto.
Qed.

Lemma keeps_derived s p c fi ft : keeps s (snd (derived s p c fi ft)).
Proof.
  unfold derived. pose proof (keeps_touch s p). destruct (touch s p) as [[o|e] s1]; auto.
  destruct (derive o c fi ft); auto.
Qed.

Lemma keeps_step s c : in_place c = false -> keeps s (snd (step s c)).
Proof.
  intro H. destruct c as [i xs xe xl|p g|p f x|p f g x|p f x|p f g x|p|p|p lo hi]; cbn [step in_place] in *;
    try discriminate; try apply keeps_derived.
  - pose proof (keeps_source s xs) as K1. destruct (source s xs) as [[t1|e] s1]; auto.
    pose proof (keeps_source s1 xe) as K2. destruct (source s1 xe) as [[t2|e] s2]; cbn [snd] in *;
      [|eapply keeps_trans; eauto].
    pose proof (keeps_source s2 xl) as K3. destruct (source s2 xl) as [[t3|e] s3]; cbn [snd] in *.
    + apply keeps_heap. eapply keeps_trans; [|eauto]. eapply keeps_trans; eauto.
    + eapply keeps_trans; [|eauto]. eapply keeps_trans; eauto.
  - pose proof (keeps_touch s p) as K. destruct (touch s p) as [[o|e] s1]; auto.
    destruct (read (st_heap s1) o g). cbn [snd put]. apply keeps_heap. auto.
  - pose proof (keeps_source s x) as K1. destruct (source s x) as [[t1|e] s1]; auto.
    pose proof (keeps_touch s1 p) as K2. destruct (touch s1 p) as [[o|e] s2]; cbn [snd] in *.
    + apply keeps_heap. eapply keeps_trans; eauto.
    + eapply keeps_trans; eauto.
Qed.

Lemma snapshot_without_in_place s p c s1 cs sides' s2 g :
  reachable s -> step s (Clone p) = (Ok (ONew c), s1) ->
  grouped (only_next s) s1 (map (pair false) cs) sides' s2 -> Forall (fun d => in_place d = false) cs ->
  sees s2 c g = sees s1 c g.
Proof.
  intros R H Gr F. destruct (clone_state s p c s1 R H) as (G1 & Ec & a & Ha & Hcopy).
  assert (Inv : good sides' s2 /\ (nth_error sides' c = Some true /\ nth_error (st_prox s2) c = Some (Pending a) /\ keeps s1 s2)).
  { refine (grouped_inv (fun sd st => nth_error sd c = Some true /\ nth_error (st_prox st) c = Some (Pending a) /\ keeps s1 st)
             (only_next s) s1 _ sides' s2 _ G1 _ Gr).
    - intros sd b st d Gd (I1 & I2 & I3) Ho Hin. apply in_map_iff in Hin as (d' & Hd & Hin). inversion Hd; subst b d'.
      pose proof (step_Eff sd false st d (g_len _ _ Gd) Ho) as E.
      split; [|split].
      + rewrite nth_error_app1; auto. eapply nth_error_some_lt; eauto.
      + rewrite (e_other _ _ _ _ _ E) by auto. auto.
      + eapply keeps_trans; eauto. apply keeps_step. rewrite Forall_forall in F. apply F. auto.
    - split; [subst c; apply only_next_at|]. split; [auto|apply keeps_refl]. }
  destruct Inv as (G2 & _ & H2 & K1 & K2).
  apply sees_local with (pr := Pending a); auto.
  intros x Hx.
  assert (x < length (st_heap s1)) by (apply (g_legal _ _ G1 (Pending a)); auto; eapply nth_error_In; eauto).
  split; [auto|]. split; [lia|auto].
Qed.

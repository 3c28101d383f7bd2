(** Proofs about take. *)

From Coq Require Import String List ZArith Bool Lia.
From Coq Require Import ZifyBool.
From Verif Require Import Py Meta MetaSpec MetaProofs MetaLenProofs MetaBatchProofs Named NamedSpec NamedProofs NamedSelProofs
  NamedIndexProofs NamedMetaProofs NamedGetProofs NamedOpsProofs NamedShapeProofs NamedSplitProofs
  AlignSpec AlignProofs AlignOpProofs Gather GatherSpec GatherProofs.
Import ListNotations.
Open Scope Z_scope.

(** The ids survive an index of the length dimension. *)
Lemma make_meta_ids i s e l c m : make_meta i s e l c = Ok m -> ids m = i.
Proof. unfold make_meta. destruct (_ && _); [|discriminate]. now intros [= <-]. Qed.

Lemma index_length_ids m ix m' : index_length m ix = Ok m' -> ids m' = ids m.
Proof.
  assert (L : forall ks, index_length_list m ks = Ok m' -> ids m' = ids m).
  { intros ks E. unfold index_length_list in E. destruct (max_length m) as [mx|]; [|discriminate]. cbn [bind] in E.
    destruct (negb _); [discriminate|]. destruct (minmax _) as [[mn mxi]|]; [|discriminate]. cbn [bind] in E. now apply make_meta_ids in E. }
  destruct ix as [|i|s|ks|b| |]; cbn [index_length]; intros E; try discriminate.
  - now injection E as <-.
  - unfold index_length_int in E. match type of E with bind ?r _ = _ => destruct r; [|discriminate] end. cbn [bind] in E. now apply make_meta_ids in E.
  - unfold index_length_slice in E. destruct (max_length m) as [mx|]; [|discriminate]. cbn [bind] in E.
    destruct (slice_indices s mx) as [[[a b] st]|]; [|discriminate]. cbn [bind] in E. destruct (st <? 0); [discriminate|]. now apply make_meta_ids in E.
  - eauto.
  - eauto.
Qed.

Lemma fromkeys_facts l : forall seen, NoDup (fromkeys seen l) /\ (forall a, In a (fromkeys seen l) <-> In a l /\ ~ In a seen).
Proof.
  induction l as [|a l IH]; intros seen; cbn [fromkeys].
  - split; [constructor|]. intros a. split; [intros []|intros [[] _]].
  - assert (EB : forall b, existsb (Z.eqb b) seen = true <-> In b seen).
    { intros b. rewrite existsb_exists. split; [intros (c & Hc & E); replace b with c by lia; exact Hc|intros Hb; exists b; split; [exact Hb|lia]]. }
    destruct (existsb (Z.eqb a) seen) eqn:E.
    + apply EB in E. destruct (IH seen) as [N F]. split; [exact N|]. intros b. rewrite F. cbn [In].
      split; [intros [H1 H2]; auto|]. intros [[->|H1] H2]; [contradiction|auto].
    + assert (Ha : ~ In a seen) by (intros Hin; apply EB in Hin; congruence).
      destruct (IH (a :: seen)) as [N F]. split.
      * constructor; [|exact N]. rewrite F. intros [_ H]. apply H. now left.
      * intros b. cbn [In]. rewrite F. cbn [In]. split.
        -- intros [<-|[H1 H2]]; [auto|]. split; [auto|]. intros Hin. apply H2. auto.
        -- intros [[<-|H1] H2]; [auto|]. destruct (Z.eq_dec a b) as [->|Hab]; [auto|]. right. split; [exact H1|]. intros [?|?]; auto.
Qed.

Section Take.
Context {V : Type}.
Implicit Types (x y : @stensor V) (t : @tensor V).

(** The coordinates along dimension [d] of the elements [l]. *)
Definition touched (s : list Z) (d : nat) (l : list Z) (b : Z) : Prop := exists i p, In i l /\ element s i p /\ nth d p 0 = b.

Lemma element_unravel s i : Forall (fun n => 0 <= n) s -> 0 <= i < zprod s -> forall p, element s i p <-> p = unravel s i.
Proof.
  intros Hs Hi p. rewrite zprod_block in Hi. destruct (unravel_range s i Hs Hi) as [R1 R2]. split.
  - intros [H <-]. now rewrite unravel_pos.
  - intros ->. split; auto.
Qed.

Lemma np_unravel_inv s l subs : np_unravel s l = Ok subs ->
  Forall (fun i => 0 <= i < zprod s) l /\ subs = map (fun d => map (fun i => nth d (unravel s i) 0) l) (seq 0 (length s)).
Proof.
  unfold np_unravel. destruct (forallb _ l) eqn:E; [|discriminate]. intros [= <-]. split; [|reflexivity].
  apply Forall_forall. intros i Hi. rewrite forallb_forall in E. specialize (E i Hi). lia.
Qed.

Lemma uniq_at s l d : (d < length s)%nat ->
  nth d (map (fromkeys []) (map (fun d => map (fun i => nth d (unravel s i) 0) l) (seq 0 (length s)))) [] = fromkeys [] (map (fun i => nth d (unravel s i) 0) l).
Proof.
  intros Hd. rewrite map_map. rewrite (nth_indep _ _ (fromkeys [] (map (fun i => nth (length s) (unravel s i) 0) l))) by now rewrite map_length, seq_length.
  rewrite (map_nth (fun d0 => fromkeys [] (map (fun i => nth d0 (unravel s i) 0) l))). now rewrite seq_nth.
Qed.

Lemma uniq_touched s l d b : Forall (fun n => 0 <= n) s -> Forall (fun i => 0 <= i < zprod s) l ->
  In b (fromkeys [] (map (fun i => nth d (unravel s i) 0) l)) <-> touched s d l b.
Proof.
  intros Hs Hl. rewrite (proj2 (fromkeys_facts _ [])), in_map_iff. rewrite Forall_forall in Hl. unfold touched. split.
  - intros [(i & E & Hi) _]. exists i, (unravel s i). split; [exact Hi|]. split; [|exact E]. now apply element_unravel; auto.
  - intros (i & p & Hi & Hp & E). split; [|intros []]. exists i. apply element_unravel in Hp; auto. subst p. auto.
Qed.

Lemma touched_range s l d b n : nth_error s d = Some n -> touched s d l b -> 0 <= b < n.
Proof.
  intros Hn (i & p & _ & [Hp _] & <-). revert d Hn. induction Hp as [|m j s p Hj Hp IH]; intros [|d] Hn; cbn in *; try discriminate.
  - injection Hn as ->. exact Hj.
  - now apply IH.
Qed.

(** C55: values and ids. *)
Lemma take_ids x bd ld c rs T l y : stream_ok x bd ld c rs T -> take x l = Ok y ->
  shp (tn y) = [zlen l] /\
  (forall j i, nth_error l j = Some i -> exists p, element (shp (tn x)) i p /\ at_ (tn y) [Z.of_nat j] = at_ (tn x) p) /\
  exists bs, NoDup bs /\ (forall b, In b bs <-> touched (shp (tn x)) bd l b) /\ ids (smeta y) = map rid (at_positions rs bs).
Proof.
  intros H E. destruct (names_index_sizes _ _ _ _ _ _ H) as (IB & IL & SB & SL).
  unfold take in E. destruct (torch_take (tn x) l) as [t'|] eqn:Et; [|discriminate]. cbn [bind] in E.
  destruct (np_unravel (shp (tn x)) l) as [subs|] eqn:Eu; [|discriminate]. cbn [bind] in E.
  destruct (np_unravel_inv _ _ _ Eu) as [Hl Esub].
  pose proof (so_sizes _ _ _ _ _ _ H) as Hs.
  assert (A : shp t' = [zlen l] /\
    (forall j i, nth_error l j = Some i -> exists p, element (shp (tn x)) i p /\ at_ t' [Z.of_nat j] = at_ (tn x) p)).
  { unfold torch_take in Et. destruct (forallb _ l); [|discriminate]. injection Et as <-. split; [reflexivity|].
    intros j i Hj. exists (unravel (shp (tn x)) i). rewrite Forall_forall in Hl. specialize (Hl i (nth_error_In _ _ Hj)).
    split; [now apply element_unravel|]. cbn [at_]. rewrite Nat2Z.id, (nth_error_nth l j 0 Hj). destruct (i <? 0) eqn:Ei; [lia|reflexivity]. }
  assert (Hbd : (bd < length (shp (tn x)))%nat) by (eapply nth_error_Some_lt, (so_bsize _ _ _ _ _ _ H)).
  unfold take_dim in E. rewrite IB in E. rewrite Esub, uniq_at in E by exact Hbd.
  set (u := fromkeys [] (map (fun i => nth bd (unravel (shp (tn x)) i) 0) l)) in *.
  assert (U1 : NoDup u) by apply fromkeys_facts.
  assert (U2 : forall b, In b u <-> touched (shp (tn x)) bd l b) by (intros b; now apply uniq_touched).
  assert (U3 : forall b, In b u -> 0 <= b < zlen rs).
  { intros b Hb. apply U2 in Hb. exact (touched_range _ _ _ _ _ (so_bsize _ _ _ _ _ _ H) Hb). }
  match type of E with bind (bind ?r _) _ = _ => destruct r as [nn|]; [|discriminate] end. cbn [bind] in E.
  rewrite IL in E. match type of E with bind (bind ?r _) _ = _ => destruct r as [nn'|]; [|discriminate] end. cbn [bind] in E.
  destruct (join_dim_names nn') as [j|]; [|discriminate]. cbn [bind] in E.
  destruct (String.eqb j ""); [discriminate|].
  assert (R : tn y = t' /\ exists mb, (mb = of_rows c rs /\ zlen u = zlen rs \/ index_batch (of_rows c rs) (BInts u) = Ok mb) /\ ids (smeta y) = ids mb).
  { rewrite (so_meta _ _ _ _ _ _ H) in E. unfold index_pair, clone in E. rewrite SB in E.
    match type of E with context [if zlen u =? zlen rs then None else Some u] => destruct (zlen u =? zlen rs) eqn:EZ end.
    - match type of E with context [match (if ?q then None else Some ?w) with _ => _ end] => destruct (if q then None else Some w) as [w'|] end.
      + cbn [index_batch bind] in E. unfold clone in E.
        match type of E with bind ?r _ = _ => destruct r as [m'|] eqn:Em; [|discriminate] end. injection E as <-.
        split; [reflexivity|]. exists (of_rows c rs). split; [left; split; [reflexivity|lia]|]. cbn [smeta]. now apply index_length_ids in Em.
      + injection E as <-. split; [reflexivity|]. exists (of_rows c rs). split; [left; split; [reflexivity|lia]|]. reflexivity.
    - destruct (index_batch (of_rows c rs) (BInts u)) as [mb|] eqn:Eb; [|].
      + assert (E' : exists ix, (do m' <- index_length mb ix; Ok (mkSt t' [Some j] m')) = Ok y).
        { match type of E with context [match (if ?q then None else Some ?w) with _ => _ end] => destruct (if q then None else Some w) as [w'|] end; cbn [bind] in E; eauto. }
        destruct E' as (ix & E'). destruct (index_length mb ix) as [m'|] eqn:Em; [|discriminate]. injection E' as <-.
        split; [reflexivity|]. exists mb. split; [now right|]. cbn [smeta]. now apply index_length_ids in Em.
      + exfalso. match type of E with context [match (if ?q then None else Some ?w) with _ => _ end] => destruct (if q then None else Some w) as [w'|] end; cbn [bind] in E; discriminate. }
  destruct R as (-> & mb & [[-> EZ]|Eb] & Ei); (split; [apply A|split; [apply A|]]).
  - exists (positions (zlen rs)). rewrite at_positions_full. rewrite Ei. cbn [ids of_rows].
    assert (P : forall b, In b (positions (zlen rs)) <-> 0 <= b < zlen rs).
    { intros b. unfold positions. rewrite in_map_iff. split; [intros (q & <- & Hq); apply in_seq in Hq; lia|].
      intros Hb. exists (Z.to_nat b). rewrite in_seq. lia. }
    split; [|split; [|reflexivity]].
    + unfold positions. apply FinFun.Injective_map_NoDup; [intros a b; apply Nat2Z.inj|apply seq_NoDup].
    + intros b. rewrite <- U2. rewrite P. split; [|apply U3]. intros Hb.
      apply (NoDup_length_incl U1 (l' := positions (zlen rs))); [|intros b' Hb'; apply P; now apply U3|now apply P].
      unfold positions, zlen in *. rewrite map_length, seq_length. lia.
  - rewrite index_batch_ints in Eb by (intros k Hk; specialize (U3 k Hk); lia). injection Eb as <-.
    exists u. split; [exact U1|]. split; [exact U2|]. rewrite Ei. cbn [ids of_rows]. f_equal. f_equal.
    rewrite <- (map_id u) at 2. apply map_ext_in. intros b Hb. apply Z.mod_small. now apply U3.
Qed.

Lemma fromkeys_const l a seen : (forall b, In b l -> b = a) -> l <> [] -> ~ In a seen -> fromkeys seen l = [a].
Proof.
  intros Hl Hne Hn. destruct (fromkeys_facts l seen) as [N F].
  assert (Ha : In a (fromkeys seen l)). { apply F. destruct l as [|b l]; [congruence|]. rewrite <- (Hl b) by now left. split; [now left|]. rewrite (Hl b) by now left. exact Hn. }
  assert (Hall : forall b, In b (fromkeys seen l) -> b = a) by (intros b Hb; apply F in Hb as [Hb _]; auto).
  destruct (fromkeys seen l) as [|b [|b' r]]; [destruct Ha|f_equal; apply Hall; now left|].
  exfalso. inversion N as [|? ? N1 _]; subst. apply N1. rewrite (Hall b), (Hall b') by (cbn; auto). now left.
Qed.

Lemma torch_take_ok t l : Forall (fun i => 0 <= i < zprod (shp t)) l -> exists t', torch_take t l = Ok t'.
Proof.
  intros H. unfold torch_take. assert (E : forallb (fun i => (- zprod (shp t) <=? i) && (i <? zprod (shp t))) l = true).
  { apply forallb_forall. intros i Hi. rewrite Forall_forall in H. specialize (H i Hi). lia. }
  rewrite E. eexists. reflexivity.
Qed.

(** Elements of a single step of a single stream: never a result if the length is the last dimension. *)
Lemma take_one_step x bd ld c rs T l b s : stream_ok x bd ld c rs T -> (bd < ld)%nat -> S ld = length (shp (tn x)) ->
  l <> [] -> Forall (fun i => exists p, element (shp (tn x)) i p /\ nth bd p 0 = b /\ nth ld p 0 = s) l ->
  take x l = Err IndexError.
Proof.
  intros H Hlt Hld Hne Hl. destruct (names_index_sizes _ _ _ _ _ _ H) as (IB & IL & SB & SL).
  assert (R : Forall (fun i => 0 <= i < zprod (shp (tn x))) l).
  { eapply Forall_impl; [|exact Hl]. cbn beta. intros i (p & [Hp <-] & _). rewrite zprod_block. now apply block_pos_range. }
  pose proof (so_sizes _ _ _ _ _ _ H) as Hs.
  destruct (torch_take_ok (tn x) l R) as (t' & Et). unfold take. rewrite Et. cbn [bind].
  unfold np_unravel. assert (E : forallb (fun i => (0 <=? i) && (i <? zprod (shp (tn x)))) l = true).
  { apply forallb_forall. intros i Hi. rewrite Forall_forall in R. specialize (R i Hi). lia. }
  rewrite E. cbn [bind]. unfold take_dim. rewrite IB, IL. rewrite !uniq_at by lia.
  assert (C : forall d v, (forall i, In i l -> exists p, element (shp (tn x)) i p /\ nth d p 0 = v) ->
    fromkeys [] (map (fun i => nth d (unravel (shp (tn x)) i) 0) l) = [v]).
  { intros d v Hv. apply fromkeys_const; [|destruct l; [congruence|discriminate]|intros []].
    intros q Hq. apply in_map_iff in Hq as (i & <- & Hi). destruct (Hv i Hi) as (p & Hp & <-).
    rewrite Forall_forall in R. apply element_unravel in Hp; auto. now subst p. }
  rewrite Forall_forall in Hl.
  rewrite (C bd b), (C ld s) by (intros i Hi; destruct (Hl i Hi) as (p & H1 & H2 & H3); eauto).
  cbn [length Nat.eqb]. unfold py_del at 1.
  pose proof (so_rank _ _ _ _ _ _ H) as HR.
  assert (L1 : Nat.ltb bd (length (names x)) = true) by (apply Nat.ltb_lt; lia). rewrite L1. cbn [bind].
  unfold py_del. assert (L2 : Nat.ltb ld (length (remove_nth bd (names x))) = false).
  { apply Nat.ltb_ge. unfold remove_nth. rewrite app_length, firstn_length, skipn_length. lia. }
  now rewrite L2.
Qed.

(** Without a batch or without a length dimension: never a result. *)
Lemma take_missing x l y : ~ In (Some "B"%string) (names x) \/ ~ In (Some "L"%string) (names x) -> take x l <> Ok y.
Proof.
  intros Hn E. unfold take in E. destruct (torch_take (tn x) l) as [t'|]; [|discriminate]. cbn [bind] in E.
  destruct (np_unravel (shp (tn x)) l) as [subs|]; [|discriminate]. cbn [bind] in E.
  assert (NI : forall n, ~ In (Some n) (names x) -> exists e, names_index (Some n) (names x) = Err e).
  { intros n H. destruct (names_index (Some n) (names x)) as [d|e] eqn:En; [|eauto].
    exfalso. apply H. apply names_index_sound in En. eapply nth_error_In; eassumption. }
  destruct (take_dim (names x) BATCH (tn x) (map (fromkeys []) subs) (names x)) as [[b nn]|] eqn:Eb; [|discriminate]. cbn [bind] in E.
  destruct (take_dim (names x) LENGTH (tn x) (map (fromkeys []) subs) nn) as [[l' nn']|] eqn:El; [|discriminate]. cbn [bind] in E.
  destruct (join_dim_names nn') as [j|]; [|discriminate]. cbn [bind] in E. destruct (String.eqb j ""); [discriminate|].
  destruct Hn as [Hn|Hn]; unfold take_dim in *.
  - unfold BATCH in Eb. destruct (NI _ Hn) as (e & Ee). rewrite Ee in Eb. injection Eb as <- <-. discriminate.
  - unfold LENGTH in El. destruct (NI _ Hn) as (e & Ee). rewrite Ee in El. injection El as <- <-. destruct b; discriminate.
Qed.

End Take.

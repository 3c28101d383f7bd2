(** Proofs about patching and mode switching on module objects used in several places (ModuleGraph.v). *)

From Coq Require Import String List ZArith Bool Lia Permutation.
From Verif Require Import Py Meta Pad Conv ConvMoreProofs ShareProofs Modes ModesSpec ModesProofs ModuleGraph ModuleGraphSpec.
Import ListNotations.

Section ModuleGraphProofs.
Context {V : Type}.
Notation obj := (obj V).
Notation attr_store := (attr_store V).

Lemma obj_ind' (Q : obj -> Prop) : (forall i k ch, Forall Q ch -> Q (Obj i k ch)) -> forall t, Q t.
Proof.
  intro H. fix IH 1. intros [i k ch]. apply H. induction ch as [|c ch IHc]; constructor; auto.
Qed.

Lemma seen_before_spec i seen : seen_before i seen = true <-> In i seen.
Proof.
  unfold seen_before. rewrite existsb_exists. split.
  - intros (x & Hx & E). apply Nat.eqb_eq in E. now subst.
  - intros H. exists i. split; [exact H|apply Nat.eqb_refl].
Qed.

(* ---------- the visits of an object ---------- *)

Definition over_ways (f : obj -> list (list nat)) : list nat -> list obj -> list (list nat) :=
  fix go seen l :=
    match l with
    | [] => []
    | c :: r => if seen_before (oid c) seen then go seen r else f c ++ go (oid c :: seen) r
    end.

Fixpoint ways_of (j : nat) (t : obj) : list (list nat) :=
  match t with
  | Obj i k ch => (if Nat.eqb i j then [[i]] else []) ++ map (cons i) (over_ways (ways_of j) [] ch)
  end.

Lemma over_ways_in f l : (forall a b, In a l -> In b l -> oid a = oid b -> a = b) -> forall seen p,
  In p (over_ways f seen l) <-> exists c, In c l /\ ~ In (oid c) seen /\ In p (f c).
Proof.
  induction l as [|c l IH]; intros HD seen p; cbn [over_ways].
  - split; [intros []|intros (c & [] & _)].
  - assert (HD' : forall a b, In a l -> In b l -> oid a = oid b -> a = b) by (intros; apply HD; auto with datatypes).
    destruct (seen_before (oid c) seen) eqn:E.
    + apply seen_before_spec in E. rewrite IH by exact HD'. split.
      * intros (d & H1 & H2 & H3). exists d. auto with datatypes.
      * intros (d & [<-|H1] & H2 & H3); [contradiction|]. exists d. auto.
    + assert (N : ~ In (oid c) seen) by (rewrite <- seen_before_spec, E; discriminate).
      rewrite in_app_iff, IH by exact HD'. split.
      * intros [H|(d & H1 & H2 & H3)]; [exists c; auto with datatypes|]. exists d. split; [now right|]. split; [|exact H3].
        intros G. apply H2. now right.
      * intros (d & [<-|H1] & H2 & H3); [now left|]. destruct (Nat.eq_dec (oid d) (oid c)) as [G|G].
        -- left. rewrite <- (HD d c); auto with datatypes.
        -- right. exists d. split; [exact H1|]. split; [|exact H3]. intros [G'|G']; [now apply G|contradiction].
Qed.

Lemma ways_of_head j t p : In p (ways_of j t) -> exists q, p = oid t :: q.
Proof.
  destruct t as [i k ch]. cbn [ways_of oid]. rewrite in_app_iff. intros [H|H].
  - destruct (Nat.eqb i j); [|destruct H]. destruct H as [<-|[]]. exists []. reflexivity.
  - apply in_map_iff in H as (q & <- & _). exists q. reflexivity.
Qed.

Lemma over_ways_head j l : forall seen p, In p (over_ways (ways_of j) seen l) -> exists i q, p = i :: q /\ ~ In i seen.
Proof.
  induction l as [|c l IH]; intros seen p; cbn [over_ways]; [intros []|].
  destruct (seen_before (oid c) seen) eqn:E; [apply IH|]. rewrite in_app_iff. intros [H|H].
  - destruct (ways_of_head _ _ _ H) as (q & ->). exists (oid c), q. split; [reflexivity|].
    rewrite <- seen_before_spec, E. discriminate.
  - destruct (IH _ _ H) as (i & q & -> & N). exists i, q. split; [reflexivity|]. intros G. apply N. now right.
Qed.

Lemma NoDup_app' {A} (l1 l2 : list A) : NoDup l1 -> NoDup l2 -> (forall a, In a l1 -> ~ In a l2) -> NoDup (l1 ++ l2).
Proof.
  induction 1 as [|a l1 Ha N IH]; intros N2 D; [exact N2|]. cbn. constructor.
  - rewrite in_app_iff. intros [G|G]; [contradiction|]. exact (D a (or_introl eq_refl) G).
  - apply IH; [exact N2|]. intros b Hb. apply D. now right.
Qed.

Lemma over_ways_nodup j l : Forall (fun t => NoDup (ways_of j t)) l -> forall seen, NoDup (over_ways (ways_of j) seen l).
Proof.
  induction 1 as [|c l Hc F IH]; intros seen; cbn [over_ways]; [constructor|].
  destruct (seen_before (oid c) seen); [apply IH|]. apply NoDup_app'; [exact Hc|apply IH|].
  intros p H1 H2. destruct (ways_of_head _ _ _ H1) as (q & ->). destruct (over_ways_head _ _ _ _ H2) as (i & q' & E & N).
  injection E as <- _. apply N. now left.
Qed.

Lemma ways_of_nodup j t : NoDup (ways_of j t).
Proof.
  induction t as [i k ch IH] using obj_ind'. cbn [ways_of]. apply NoDup_app'.
  - destruct (Nat.eqb i j); repeat constructor. intros [].
  - apply FinFun.Injective_map_NoDup; [intros a b E; now injection E|]. apply over_ways_nodup. exact IH.
  - intros p H1 H2. destruct (Nat.eqb i j); [|destruct H1]. destruct H1 as [<-|[]]. apply in_map_iff in H2 as (q & E & Hq).
    injection E as ->. destruct (over_ways_head _ _ _ _ Hq) as (i' & q' & E & _). discriminate.
Qed.

Lemma one_object_child i (k : kind V) ch c : one_object (Obj i k ch) -> In c ch -> one_object c.
Proof. intros H Hc a b Ha Hb. apply H; eapply part_child; eauto. Qed.

Lemma one_object_children i (k : kind V) ch : one_object (Obj i k ch) -> forall a b, In a ch -> In b ch -> oid a = oid b -> a = b.
Proof.
  intros H a b Ha Hb. apply H; [apply (part_child a a i k ch Ha (part_self a))|apply (part_child b b i k ch Hb (part_self b))].
Qed.

Lemma ways_of_way j t p : one_object t -> In p (ways_of j t) <-> way j t p.
Proof.
  revert p. induction t as [i k ch IH] using obj_ind'. intros p HO. cbn [ways_of]. rewrite in_app_iff, in_map_iff.
  rewrite Forall_forall in IH. split.
  - intros [H|(q & <- & H)].
    + destruct (Nat.eqb_spec i j) as [->|]; [|destruct H]. destruct H as [<-|[]]. constructor.
    + rewrite over_ways_in in H by (eapply one_object_children; eauto). destruct H as (c & Hc & _ & Hq).
      apply (way_down j i k ch c); [exact Hc|]. apply IH; auto. eapply one_object_child; eauto.
  - intros H. inversion H as [k' ch' E1 E2|i' k' ch' c q Hc Hw E1 E2]; subst.
    + left. rewrite Nat.eqb_refl. now left.
    + right. exists q. split; [reflexivity|]. rewrite over_ways_in by (eapply one_object_children; eauto).
      exists c. split; [exact Hc|]. split; [intros []|]. apply IH; auto. eapply one_object_child; eauto.
Qed.

Lemma way_part j (t : obj) p : way j t p -> exists c, part_of c t /\ oid c = j.
Proof.
  induction 1 as [k ch|i k ch c p Hc Hw (d & Hd & E)]; [eexists; split; [constructor|reflexivity]|].
  exists d. split; [eapply part_child; eauto|exact E].
Qed.

Lemma part_way c (t : obj) : part_of c t -> exists p, way (oid c) t p.
Proof.
  induction 1 as [[i k ch]|c t i k ch Hin Hp (p & IH)]; [eexists; constructor|].
  exists (i :: p). eapply way_down; eauto.
Qed.

Lemma ways_count j (t : obj) ps : one_object t -> NoDup ps -> (forall p, In p ps <-> way j t p) -> length (ways_of j t) = length ps.
Proof.
  intros HO HN HP. apply Permutation_length. apply NoDup_Permutation; [apply ways_of_nodup|exact HN|].
  intros p. rewrite HP. now apply ways_of_way.
Qed.

(* ---------- patching ---------- *)

(** What [n] visits do to an object of kind [k]. *)
Definition visited (k : kind V) (a : option (attrs V)) (n : nat) : option (attrs V) :=
  match n with
  | O => a
  | S _ => Some (match k with
                 | KConv _ => mkAttrs false (old_hooks a + n) no_buffers
                 | _ => mkAttrs false (old_hooks a) (old_buffers a)
                 end)
  end.

Lemma visited_add k a n m : visited k (visited k a n) m = visited k a (n + m).
Proof.
  destruct n as [|n]; [reflexivity|]. destruct m as [|m]; [now rewrite Nat.add_0_r|].
  cbn. destruct k; cbn; try reflexivity. do 2 f_equal. lia.
Qed.

Lemma patch_module_visited k a : k <> KUnsupported -> snd (patch_module k a) = None /\ Some (fst (patch_module k a)) = visited k a 1.
Proof.
  intros H. destruct k; cbn; try (split; reflexivity); [|contradiction].
  split; [reflexivity|]. unfold patch_conv_1d. cbn. now rewrite Nat.add_1_r.
Qed.

Lemma over_children_visited j k (l : list obj) :
  Forall (fun c => forall s, snd (patch_obj c s) = None /\ fst (patch_obj c s) j = visited k (s j) (length (ways_of j c))) l ->
  forall seen s, snd (over_children patch_obj seen l s) = None /\
    fst (over_children patch_obj seen l s) j = visited k (s j) (length (over_ways (ways_of j) seen l)).
Proof.
  induction 1 as [|c l Hc F IH]; intros seen s; cbn [over_children over_ways]; [split; reflexivity|].
  destruct (seen_before (oid c) seen); [apply IH|]. destruct (Hc s) as [E1 E2].
  destruct (patch_obj c s) as [s' r]. cbn [fst snd] in E1, E2. subst r. destruct (IH (oid c :: seen) s') as [E3 E4].
  split; [exact E3|]. rewrite E4, E2, visited_add, app_length. reflexivity.
Qed.

Lemma patch_obj_visited j k (t : obj) : (forall c, part_of c t -> oid c = j -> okind c = k) -> all_supported t -> forall s,
  snd (patch_obj t s) = None /\ fst (patch_obj t s) j = visited k (s j) (length (ways_of j t)).
Proof.
  induction t as [i k0 ch IH] using obj_ind'. intros HK HS s. cbn [patch_obj ways_of].
  destruct (over_children_visited j k ch) with (seen := @nil nat) (s := s) as [E1 E2].
  { rewrite Forall_forall in *. intros c Hc. apply IH; [exact Hc| |].
    - intros d Hd. apply HK. eapply part_child; eauto.
    - intros d Hd. apply HS. eapply part_child; eauto. }
  destruct (over_children patch_obj [] ch s) as [s' r]. cbn [fst snd] in E1, E2. subst r.
  assert (N : k0 <> KUnsupported) by (apply (HS (Obj i k0 ch)); constructor).
  destruct (patch_module_visited k0 (s' i) N) as [P1 P2]. destruct (patch_module k0 (s' i)) as [a r]. cbn [fst snd] in *. subst r.
  split; [reflexivity|]. unfold set_attrs. rewrite app_length, map_length. rewrite Nat.eqb_sym.
  destruct (Nat.eqb_spec i j) as [->|].
  - assert (E : k0 = k) by (apply (HK (Obj j k0 ch)); [constructor|reflexivity]). subst k0. rewrite P2, E2, visited_add.
    f_equal. cbn. lia.
  - exact E2.
Qed.

Lemma kind_of_part (t : obj) c : one_object t -> part_of c t -> forall d, part_of d t -> oid d = oid c -> okind d = okind c.
Proof. intros H Hc d Hd E. now rewrite (H d c Hd Hc E). Qed.

(** The store after patching a supported model. *)
Lemma patch_part (t : obj) s c : one_object t -> all_supported t -> part_of c t ->
  fst (patch_obj t s) (oid c) = visited (okind c) (s (oid c)) (length (ways_of (oid c) t)) /\ (0 < length (ways_of (oid c) t))%nat.
Proof.
  intros HO HS Hc. split.
  - apply patch_obj_visited; [now apply kind_of_part|exact HS].
  - destruct (part_way c t Hc) as (p & Hp). apply ways_of_way in Hp; [|exact HO]. destruct (ways_of (oid c) t); [destruct Hp|cbn; lia].
Qed.

Lemma patch_supported (t : obj) s : all_supported t -> one_object t -> snd (patch_obj t s) = None.
Proof.
  intros HS HO. apply (patch_obj_visited (oid t) (okind t) t); [|exact HS]. apply kind_of_part; [exact HO|constructor].
Qed.

(** The exact number of hooks. *)
Lemma patch_hooks (t : obj) s i c ps : one_object t -> all_supported t -> conv_at t i c -> NoDup ps -> (forall p, In p ps <-> way i t p) ->
  fst (patch_obj t s) i = Some (mkAttrs false (old_hooks (s i) + length ps) no_buffers).
Proof.
  intros HO HS (ch & Hp) HN HP. destruct (patch_part t s _ HO HS Hp) as [E L]. cbn [oid okind] in E, L.
  rewrite E. rewrite (ways_count i t ps HO HN HP) in *. destruct (length ps); [lia|]. reflexivity.
Qed.

(* ---------- modes ---------- *)

Definition switched_to (b : bool) (a : option (attrs V)) (n : nat) : option (attrs V) :=
  match n with O => a | S _ => option_map (fun x => mkAttrs b (hooks x) (stream_buffer x)) a end.

Lemma switched_add b a n m : switched_to b (switched_to b a n) m = switched_to b a (n + m).
Proof. destruct n as [|n]; [reflexivity|]. destruct m as [|m]; [now rewrite Nat.add_0_r|]. destruct a; reflexivity. Qed.

Lemma switched_some b a n : a <> None -> switched_to b a n <> None.
Proof. destruct n; [auto|]. destruct a; cbn; congruence. Qed.

Lemma over_children_online b (l : list obj) :
  Forall (fun c => forall s, (forall d, part_of d c -> s (oid d) <> None) -> snd (online_obj b c s) = None /\
    forall j, fst (online_obj b c s) j = switched_to b (s j) (length (ways_of j c))) l ->
  forall seen s, (forall c d, In c l -> part_of d c -> s (oid d) <> None) -> snd (over_children (online_obj b) seen l s) = None /\
    forall j, fst (over_children (online_obj b) seen l s) j = switched_to b (s j) (length (over_ways (ways_of j) seen l)).
Proof.
  induction 1 as [|c l Hc F IH]; intros seen s HP; cbn [over_children over_ways]; [split; reflexivity|].
  destruct (seen_before (oid c) seen); [apply IH; intros c0 d H0 Hd; exact (HP c0 d (or_intror H0) Hd)|].
  destruct (Hc s) as [E1 E2]; [intros d Hd; exact (HP c d (or_introl eq_refl) Hd)|].
  destruct (online_obj b c s) as [s' r]. cbn [fst snd] in E1, E2. subst r. destruct (IH (oid c :: seen) s') as [E3 E4].
  { intros c' d Hc' Hd. rewrite E2. apply switched_some. exact (HP c' d (or_intror Hc') Hd). }
  split; [exact E3|]. intros j. rewrite E4, E2, switched_add, app_length. reflexivity.
Qed.

Lemma online_obj_switched b (t : obj) : forall s, (forall d, part_of d t -> s (oid d) <> None) ->
  snd (online_obj b t s) = None /\ forall j, fst (online_obj b t s) j = switched_to b (s j) (length (ways_of j t)).
Proof.
  induction t as [i k ch IH] using obj_ind'. intros s HP. cbn [online_obj].
  destruct (s i) as [a|] eqn:Ei; [|exfalso; apply (HP (Obj i k ch)); [constructor|exact Ei]].
  destruct (over_children_online b ch IH [] (set_attrs s i (mkAttrs b (hooks a) (stream_buffer a)))) as [E1 E2].
  { intros c d Hc Hd. unfold set_attrs. destruct (Nat.eqb (oid d) i); [discriminate|]. apply HP. eapply part_child; eauto. }
  split; [exact E1|]. intros j. rewrite E2. cbn [ways_of]. rewrite app_length, map_length. unfold set_attrs.
  rewrite Nat.eqb_sym. destruct (Nat.eqb_spec i j) as [->|].
  - cbn [length]. rewrite <- switched_add. rewrite Ei. reflexivity.
  - reflexivity.
Qed.

Lemma patch_then_online (t : obj) s c b : one_object t -> all_supported t -> part_of c t ->
  snd (online_obj b t (fst (patch_obj t s))) = None /\
  fst (online_obj b t (fst (patch_obj t s))) (oid c)
  = option_map (fun x => mkAttrs b (hooks x) (stream_buffer x)) (visited (okind c) (s (oid c)) (length (ways_of (oid c) t))).
Proof.
  intros HO HS Hc. destruct (online_obj_switched b t (fst (patch_obj t s))) as [E1 E2].
  { intros d Hd. destruct (patch_part t s d HO HS Hd) as [E L]. rewrite E. destruct (length (ways_of (oid d) t)); [lia|discriminate]. }
  split; [exact E1|]. rewrite E2. destruct (patch_part t s c HO HS Hc) as [E L]. rewrite E.
  destruct (length (ways_of (oid c) t)); [lia|reflexivity].
Qed.

Lemma node_call_twice_any (c : conv_cfg V) n buf t r : node_call c (Some (mkAttrs true (S (S n)) buf)) t <> Ok r.
Proof.
  destruct t as [w rows|x]; [rewrite node_call_online_plain; discriminate|apply node_call_twice].
Qed.

(** Used in two places: never works online. *)
Lemma shared_never_works (t : obj) i c p q : one_object t -> all_supported t -> conv_at t i c -> way i t p -> way i t q -> p <> q ->
  snd (patch_obj t nothing_patched) = None /\
  snd (online_obj true t (fst (patch_obj t nothing_patched))) = None /\
  forall x r, node_call c (fst (online_obj true t (fst (patch_obj t nothing_patched))) i) x <> Ok r.
Proof.
  intros HO HS (ch & Hp) Wp Wq D. split; [now apply patch_supported|].
  destruct (patch_then_online t nothing_patched _ true HO HS Hp) as [E1 E2]. cbn [oid okind] in E2. split; [exact E1|].
  intros x r. rewrite E2.
  assert (L : (2 <= length (ways_of i t))%nat).
  { apply ways_of_way in Wp; [|exact HO]. apply ways_of_way in Wq; [|exact HO]. destruct (ways_of i t) as [|a [|b l]]; cbn; try lia.
    - destruct Wp.
    - destruct Wp as [<-|[]]. destruct Wq as [<-|[]]. contradiction. }
  destruct (length (ways_of i t)) as [|[|n]]; try lia. cbn. apply node_call_twice_any.
Qed.

(** Used in one place: the streaming convolution. *)
Lemma single_works (t : obj) i c p : one_object t -> all_supported t -> conv_at t i c -> (forall q, way i t q <-> q = p) ->
  snd (online_obj true t (fst (patch_obj t nothing_patched))) = None /\
  fst (online_obj true t (fst (patch_obj t nothing_patched))) i = Some (mkAttrs true 1 no_buffers) /\
  forall x, node_call c (fst (online_obj true t (fst (patch_obj t nothing_patched))) i) (Stream x)
            = do '(y, buf') <- conv_call c no_buffers x; Ok (Stream y, Some (mkAttrs true 1 buf')).
Proof.
  intros HO HS (ch & Hp) W.
  destruct (patch_then_online t nothing_patched _ true HO HS Hp) as [E1 E2]. cbn [oid okind] in E2. split; [exact E1|].
  assert (L : length (ways_of i t) = 1%nat).
  { apply (ways_count i t [p] HO); [repeat constructor; intros []|]. intros q. rewrite W. cbn. intuition congruence. }
  rewrite L in E2. cbn in E2. split; [exact E2|]. intros x. rewrite E2. apply node_call_online_stream.
Qed.

(* ---------- refused models ---------- *)

Lemma over_children_error (l : list obj) :
  Forall (fun c => forall s, snd (patch_obj c s) = None \/ snd (patch_obj c s) = Some NotImplementedError) l ->
  forall seen s, snd (over_children (V := V) patch_obj seen l s) = None \/ snd (over_children patch_obj seen l s) = Some NotImplementedError.
Proof.
  induction 1 as [|c l Hc F IH]; intros seen s; cbn [over_children]; [now left|].
  destruct (seen_before (oid c) seen); [apply IH|]. specialize (Hc s). destruct (patch_obj c s) as [s' [e|]].
  - right. cbn in Hc |- *. destruct Hc as [Hc|Hc]; [discriminate|exact Hc].
  - apply IH.
Qed.

Lemma patch_obj_error (t : obj) : forall s, snd (patch_obj t s) = None \/ snd (patch_obj t s) = Some NotImplementedError.
Proof.
  induction t as [i k ch IH] using obj_ind'. intros s. cbn [patch_obj].
  pose proof (over_children_error ch IH [] s) as H. destruct (over_children patch_obj [] ch s) as [s' [e|]].
  - right. cbn in H |- *. destruct H as [H|H]; [discriminate|exact H].
  - destruct k; cbn; auto.
Qed.

Lemma over_children_none (l : list obj) : forall seen s, snd (over_children (V := V) patch_obj seen l s) = None ->
  forall c, In c l -> ~ In (oid c) seen -> (forall a b, In a l -> In b l -> oid a = oid b -> a = b) ->
  exists s', snd (patch_obj c s') = None.
Proof.
  induction l as [|d l IH]; intros seen s H c Hc N D; [destruct Hc|]. cbn [over_children] in H.
  assert (D' : forall a b, In a l -> In b l -> oid a = oid b -> a = b) by (intros; apply D; auto with datatypes).
  destruct (seen_before (oid d) seen) eqn:E.
  - apply seen_before_spec in E. destruct Hc as [<-|Hc]; [contradiction|]. eapply IH; eauto.
  - destruct (patch_obj d s) as [s' [e|]] eqn:P; [discriminate|].
    destruct (Nat.eq_dec (oid c) (oid d)) as [G|G].
    + rewrite (D c d Hc (or_introl eq_refl) G). exists s. now rewrite P.
    + destruct Hc as [<-|Hc]; [contradiction|]. apply (IH (oid d :: seen) s' H c Hc); [|exact D'].
      intros [G'|G']; [now apply G|contradiction].
Qed.

Lemma patch_none_supported (t : obj) : one_object t -> forall s, snd (patch_obj t s) = None -> all_supported t.
Proof.
  induction t as [i k ch IH] using obj_ind'. intros HO s H. cbn [patch_obj] in H.
  destruct (over_children patch_obj [] ch s) as [s' [e|]] eqn:E; [discriminate|].
  assert (Hk : k <> KUnsupported) by (intros ->; discriminate).
  intros c Hc. inversion Hc as [|c' t' i' k' ch' Hin Hp E1 E2]; subst; [exact Hk|].
  rewrite Forall_forall in IH.
  destruct (over_children_none ch [] s) with (c := t') as (s2 & H2); auto.
  - now rewrite E.
  - eapply one_object_children; eauto.
  - eapply (IH t' Hin); eauto. eapply one_object_child; eauto.
Qed.

Lemma patch_refuses (t : obj) s : one_object t -> (snd (patch_obj t s) = None <-> all_supported t) /\
  (~ all_supported t -> snd (patch_obj t s) = Some NotImplementedError).
Proof.
  intros HO. split.
  - split; [now apply patch_none_supported|]. intros HS. now apply patch_supported.
  - intros N. destruct (patch_obj_error t s) as [H|H]; [|exact H]. exfalso. apply N. eapply patch_none_supported; eauto.
Qed.

(** Patching never switches a mode on, whether it succeeds or not. *)
Definition off (a : option (attrs V)) : Prop := match a with None => True | Some a => streaming a = false end.

Lemma patch_module_off k a : streaming (fst (patch_module (V := V) k a)) = false.
Proof. destruct k; reflexivity. Qed.

Lemma over_children_off (l : list obj) :
  Forall (fun c => forall s, (forall j, off (s j)) -> forall j, off (fst (patch_obj c s) j)) l ->
  forall seen s, (forall j, off (s j)) -> forall j, off (fst (over_children patch_obj seen l s) j).
Proof.
  induction 1 as [|c l Hc F IH]; intros seen s H j; cbn [over_children]; [apply H|].
  destruct (seen_before (oid c) seen); [now apply IH|]. specialize (Hc s H). destruct (patch_obj c s) as [s' [e|]]; [apply Hc|].
  apply IH. exact Hc.
Qed.

Lemma patch_obj_off (t : obj) : forall s, (forall j, off (s j)) -> forall j, off (fst (patch_obj t s) j).
Proof.
  induction t as [i k ch IH] using obj_ind'. intros s H j. cbn [patch_obj].
  pose proof (over_children_off ch IH [] s H) as HC. destruct (over_children patch_obj [] ch s) as [s' [e|]]; [apply HC|].
  pose proof (patch_module_off k (s' i)) as HM. destruct (patch_module k (s' i)) as [a r]. cbn [fst] in *. unfold set_attrs.
  destruct (Nat.eqb j i); [exact HM|apply HC].
Qed.

Lemma patch_offline_plain (t : obj) s (c : conv_cfg V) i w rows : (forall j, off (s j)) ->
  exists a, node_call c (fst (patch_obj t s) i) (Plain w rows) = do '(y, _) <- node_call c None (Plain w rows); Ok (y, a).
Proof.
  intros H. pose proof (patch_obj_off t s H i) as O. destruct (fst (patch_obj t s) i) as [[b n buf]|].
  - cbn in O. subst b. eexists. apply node_call_offline_plain.
  - exists None. unfold node_call. cbn [bind]. destruct (torch_conv1d c (padn c) w rows) as [[n out]|]; reflexivity.
Qed.

(** An encoder whose model was refused because of another part, patched on its own afterwards. *)
Lemma refused_then_part (enc : obj) r u i c : one_object enc -> all_supported enc -> conv_at enc i c -> (forall p, ~ way u enc p) ->
  let s := fst (patch_obj (Obj r KOther [enc; Obj u KUnsupported []]) nothing_patched) in
  snd (patch_obj (Obj r KOther [enc; Obj u KUnsupported []]) nothing_patched) = Some NotImplementedError /\
  snd (patch_obj enc s) = None /\ snd (online_obj true enc (fst (patch_obj enc s))) = None /\
  forall x y, node_call c (fst (online_obj true enc (fst (patch_obj enc s))) i) x <> Ok y.
Proof.
  intros HO HS HC HU. cbv zeta.
  assert (Nu : oid enc <> u) by (intros E; destruct (part_way enc enc (part_self _)) as (p & Hp); rewrite E in Hp; exact (HU p Hp)).
  assert (EP : patch_obj (Obj r KOther [enc; Obj u KUnsupported []]) nothing_patched
    = (set_attrs (fst (patch_obj enc nothing_patched)) u (add_streaming_modes (fst (patch_obj enc nothing_patched) u)), Some NotImplementedError)).
  { cbn [patch_obj over_children seen_before existsb oid]. pose proof (patch_supported enc nothing_patched HS HO) as E0.
    destruct (patch_obj enc nothing_patched) as [s1 e]. cbn [snd fst] in *. subst e.
    destruct (Nat.eqb_spec u (oid enc)) as [E|_]; [now symmetry in E|]. cbn. reflexivity. }
  rewrite EP. cbn [fst snd]. split; [reflexivity|].
  set (s := set_attrs _ u _). split; [now apply patch_supported|].
  pose proof HC as (ch & Hp). destruct (patch_then_online enc s _ true HO HS Hp) as [E1 E2]. cbn [oid okind] in E2.
  split; [exact E1|]. intros x y. rewrite E2.
  destruct (patch_part enc nothing_patched _ HO HS Hp) as [F1 F2]. cbn [oid okind] in F1, F2.
  assert (Es : s i = fst (patch_obj enc nothing_patched) i).
  { unfold s, set_attrs. destruct (Nat.eqb_spec i u) as [->|]; [|reflexivity]. destruct (part_way _ _ Hp) as (p & W). cbn in W. destruct (HU p W). }
  rewrite Es, F1. cbn [nothing_patched].
  destruct (length (ways_of i enc)) as [|n]; [lia|]. cbn. rewrite Nat.add_succ_r. apply node_call_twice_any.
Qed.

(* ---------- switching models with modules never patched ---------- *)

Definition keeps (b : bool) (t : obj) : Prop := forall s,
  (snd (online_obj b t s) = None \/ snd (online_obj b t s) = Some AttributeError) /\
  (forall j, fst (online_obj b t s) j = None <-> s j = None) /\
  (snd (online_obj b t s) = None -> forall d, part_of d t -> s (oid d) <> None).

Lemma over_children_keeps b (l : list obj) : (forall a c, In a l -> In c l -> oid a = oid c -> a = c) -> Forall (keeps b) l -> forall seen s,
  (snd (over_children (online_obj b) seen l s) = None \/ snd (over_children (online_obj b) seen l s) = Some AttributeError) /\
  (forall j, fst (over_children (online_obj b) seen l s) j = None <-> s j = None) /\
  (snd (over_children (online_obj b) seen l s) = None -> forall c d, In c l -> ~ In (oid c) seen -> part_of d c -> s (oid d) <> None).
Proof.
  intros D F. induction F as [|c l Hc F IH]; intros seen s; cbn [over_children].
  { split; [now left|]. split; [reflexivity|]. intros _ c d []. }
  assert (D' : forall a c, In a l -> In c l -> oid a = oid c -> a = c) by (intros; apply D; auto with datatypes).
  specialize (IH D'). destruct (seen_before (oid c) seen) eqn:E.
  { apply seen_before_spec in E. destruct (IH seen s) as (A1 & A2 & A3). split; [exact A1|]. split; [exact A2|].
    intros H c' d [<-|Hin] N Hd; [contradiction|]. exact (A3 H c' d Hin N Hd). }
  destruct (Hc s) as (B1 & B2 & B3). destruct (online_obj b c s) as [s' [e|]]; cbn [fst snd] in *.
  { split; [exact B1|]. split; [exact B2|]. discriminate. }
  destruct (IH (oid c :: seen) s') as (A1 & A2 & A3). split; [exact A1|].
  split; [intros j; rewrite A2; apply B2|]. intros H c' d Hin N Hd.
  destruct (Nat.eq_dec (oid c') (oid c)) as [G|G].
  - rewrite (D c' c Hin (or_introl eq_refl) G) in Hd. now apply B3.
  - destruct Hin as [<-|Hin]; [contradiction|]. rewrite <- B2. apply (A3 H c' d Hin); [|exact Hd].
    intros [G'|G']; [now apply G|contradiction].
Qed.

Lemma online_obj_keeps b (t : obj) : one_object t -> keeps b t.
Proof.
  induction t as [i k ch IH] using obj_ind'. intros HO s. cbn [online_obj]. destruct (s i) as [a|] eqn:Ei.
  2:{ split; [now right|]. split; [reflexivity|]. discriminate. }
  destruct (over_children_keeps b ch) with (seen := @nil nat) (s := set_attrs s i (mkAttrs b (hooks a) (stream_buffer a))) as (A1 & A2 & A3).
  { eapply one_object_children; eauto. }
  { rewrite Forall_forall in *. intros c Hc. apply IH; [exact Hc|]. eapply one_object_child; eauto. }
  split; [exact A1|]. split.
  - intros j. rewrite A2. unfold set_attrs. destruct (Nat.eqb_spec j i) as [->|]; [|reflexivity]. rewrite Ei. split; discriminate.
  - intros H d Hd. inversion Hd as [|c' t' i' k' ch' Hin Hp E1 E2]; subst; [cbn; congruence|].
    specialize (A3 H t' d Hin (fun x => x) Hp). unfold set_attrs in A3. destruct (Nat.eqb_spec (oid d) i) as [->|]; [congruence|exact A3].
Qed.

Lemma online_refuses b (t : obj) s : one_object t ->
  (snd (online_obj b t s) = None <-> forall d, part_of d t -> s (oid d) <> None) /\
  (forall d, part_of d t -> s (oid d) = None -> snd (online_obj b t s) = Some AttributeError).
Proof.
  intros HO. destruct (online_obj_keeps b t HO s) as (A1 & A2 & A3). split.
  - split; [exact A3|]. intros H. now apply online_obj_switched.
  - intros d Hd E. destruct A1 as [A1|A1]; [|exact A1]. destruct (A3 A1 d Hd E).
Qed.

(** What switching leaves behind. *)
Lemma part_has_way d (t : obj) : part_of d t -> exists p, way (oid d) t p.
Proof.
  induction 1 as [[i k ch]|c t i k ch Hin H (p & Hp)]; [exists [i]; constructor|]. exists (i :: p). eapply way_down; eauto.
Qed.

Lemma way_has_part j (t : obj) p : way j t p -> exists d, part_of d t /\ oid d = j.
Proof.
  induction 1 as [k ch|i k ch c p Hin H (d & Hd & E)]; [exists (Obj j k ch); split; [constructor|reflexivity]|].
  exists d. split; [eapply part_child; eauto|exact E].
Qed.

Lemma online_exact b (t : obj) s : one_object t -> snd (online_obj b t s) = None ->
  (forall d, part_of d t -> exists a, s (oid d) = Some a /\ fst (online_obj b t s) (oid d) = Some (mkAttrs b (hooks a) (stream_buffer a))) /\
  (forall j, (forall d, part_of d t -> oid d <> j) -> fst (online_obj b t s) j = s j).
Proof.
  intros HO H. pose proof (proj1 (proj1 (online_refuses b t s HO)) H) as HP. destruct (online_obj_switched b t s HP) as [_ E]. split.
  - intros d Hd. specialize (HP d Hd). destruct (s (oid d)) as [a|] eqn:Ea; [|congruence]. exists a. split; [reflexivity|].
    rewrite E, Ea. destruct (part_has_way d t Hd) as (p & Hp). apply (ways_of_way _ t p HO) in Hp.
    destruct (ways_of (oid d) t) as [|w ws]; [destruct Hp|reflexivity].
  - intros j Hj. rewrite E. destruct (ways_of j t) as [|w ws] eqn:W; [reflexivity|].
    assert (Hw : way j t w) by (apply ways_of_way; [exact HO|]; rewrite W; now left).
    destruct (way_has_part j t w Hw) as (d & Hd & Ed). destruct (Hj d Hd Ed).
Qed.

(** Two switches are the last one. *)
Lemma online_twice b b' (t : obj) s : one_object t -> snd (online_obj b t s) = None ->
  snd (online_obj b' t (fst (online_obj b t s))) = None /\
  forall j, fst (online_obj b' t (fst (online_obj b t s))) j = fst (online_obj b' t s) j.
Proof.
  intros HO H. pose proof (proj1 (proj1 (online_refuses b t s HO)) H) as HP. destruct (online_obj_switched b t s HP) as [_ E].
  destruct (online_obj_switched b' t s HP) as [_ E'].
  destruct (online_obj_switched b' t (fst (online_obj b t s))) as [F1 F2].
  { intros d Hd. rewrite E. now apply switched_some, HP. }
  split; [exact F1|]. intros j. rewrite F2, E, E'. destruct (length (ways_of j t)); [reflexivity|]. cbn. destruct (s j); reflexivity.
Qed.

(** A switch that fails half-way is not undone. *)
Definition maybe_switched (b : bool) (s s' : attr_store) : Prop := forall j, s' j = s j \/ s' j = switched_to b (s j) 1.

Lemma maybe_trans b s1 s2 s3 : maybe_switched b s1 s2 -> maybe_switched b s2 s3 -> maybe_switched b s1 s3.
Proof.
  intros H1 H2 j. destruct (H2 j) as [->| ->]; [apply H1|]. right. destruct (H1 j) as [->| ->]; [reflexivity|]. now rewrite switched_add; destruct (s1 j).
Qed.

Lemma maybe_children b (l : list obj) : Forall (fun c => forall s, maybe_switched b s (fst (online_obj b c s))) l ->
  forall seen s, maybe_switched b s (fst (over_children (online_obj b) seen l s)).
Proof.
  induction 1 as [|c l Hc F IH]; intros seen s; cbn [over_children]; [intros j; now left|].
  destruct (seen_before (oid c) seen); [apply IH|]. specialize (Hc s). destruct (online_obj b c s) as [s' [e|]]; cbn [fst] in *; [exact Hc|].
  eapply maybe_trans; [exact Hc|apply IH].
Qed.

Lemma online_maybe b (t : obj) : forall s, maybe_switched b s (fst (online_obj b t s)).
Proof.
  induction t as [i k ch IH] using obj_ind'. intros s. cbn [online_obj]. destruct (s i) as [a|] eqn:Ei; [|intros j; now left].
  eapply maybe_trans; [|apply maybe_children; exact IH].
  intros j. unfold set_attrs. destruct (Nat.eqb_spec j i) as [->|]; [|now left]. right. rewrite Ei. reflexivity.
Qed.

Lemma online_top b (t : obj) s a : s (oid t) = Some a ->
  fst (online_obj b t s) (oid t) = Some (mkAttrs b (hooks a) (stream_buffer a)).
Proof.
  destruct t as [i k ch]. cbn [oid online_obj]. intros E. rewrite E.
  assert (F : Forall (fun c => forall s, maybe_switched b s (fst (online_obj b c s))) ch) by (apply Forall_forall; intros c _; apply online_maybe).
  destruct (maybe_children b ch F [] (set_attrs s i (mkAttrs b (hooks a) (stream_buffer a))) i) as [-> | ->];
    unfold set_attrs; rewrite Nat.eqb_refl; reflexivity.
Qed.

Lemma failed_switch b (t : obj) s d a : one_object t -> part_of d t -> s (oid d) = None -> s (oid t) = Some a ->
  snd (online_obj b t s) = Some AttributeError /\
  fst (online_obj b t s) (oid t) = Some (mkAttrs b (hooks a) (stream_buffer a)) /\ fst (online_obj b t s) (oid d) = None.
Proof.
  intros HO Hd E Ea. split; [exact (proj2 (online_refuses b t s HO) d Hd E)|]. split; [now apply online_top|].
  destruct (online_maybe b t s (oid d)) as [-> | ->]; rewrite E; reflexivity.
Qed.

(* ---------- one object applied twice in a forward ---------- *)

Lemma reused_end (c : conv_cfg V) st (x : batch V) i r : (1 < kernel_width c)%Z ->
  ids (bm x) = [i] -> sos (bm x) = [false] -> eos (bm x) = [true] -> applied_twice c st x <> Ok r.
Proof.
  intros K I S0 E H. unfold applied_twice in H. destruct (conv_call c st x) as [[y st1]|] eqn:C; [|discriminate]. cbn [bind] in H.
  assert (M : ids (bm y) = [i] /\ sos (bm y) = [false] /\ eos (bm y) = [true]).
  { unfold conv_call in C. destruct (pre_hook c st x) as [x1|] eqn:P; [|discriminate]. cbn [bind] in C.
    destruct (conv1d c x1) as [[y1 tmp]|] eqn:D; [|discriminate]. cbn [bind] in C. injection C as <- _.
    destruct (conv1d_meta c x1 y1 tmp D) as (M1 & M2 & M3 & _). rewrite M1, M2, M3.
    unfold pre_hook in P. destruct (_ && _); [|injection P as <-; auto].
    unfold buffer_data in P. rewrite I in P. cbn [map] in P. cbn [forallb] in P.
    rewrite Z.eqb_refl in P. cbn [andb] in P. destruct (stack_buffers [st i]) as [bs|]; [|discriminate]. cbn [bind] in P.
    unfold cat_front in P. destruct (Nat.eqb _ _); [|discriminate]. injection P as <-. auto. }
  destruct M as (M1 & M2 & M3).
  assert (R : st1 i = None) by (apply (call_releases c st x y st1 C); rewrite M1, M3; now left).
  unfold conv_call, pre_hook in H. unfold all_starting in H. rewrite M2 in H. replace (1 <? kernel_width c)%Z with true in H by lia.
  cbn [all_true forallb andb negb] in H. unfold buffer_data in H. rewrite M1 in H. cbn [map] in H. rewrite R in H.
  cbn in H. discriminate.
Qed.
End ModuleGraphProofs.

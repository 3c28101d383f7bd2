(** Proofs about Modes.v. *)

From Coq Require Import String List ZArith Bool Lia.
From Verif Require Import Py Meta Pad Conv Modes ModesSpec.
Import ListNotations.
Open Scope nat_scope.

Section ModesProofs.
Context {V : Type}.
Implicit Types m : module V.
Implicit Types P : kind V -> option (attrs V) -> Prop.
Implicit Types R : kind V -> option (attrs V) -> option (attrs V) -> Prop.
Implicit Types ch : list (module V).

Lemma module_ind' (Q : module V -> Prop) :
  (forall k a ch, Forall Q ch -> Q (Mod k a ch)) -> forall m, Q m.
Proof.
  intro H. fix IH 1. intros [k a ch]. apply H. induction ch as [|c ch IHc]; constructor; auto.
Qed.

Lemma every_mod P k a ch : every P (Mod k a ch) <-> P k a /\ Forall (every P) ch.
Proof.
  unfold every. cbn [nodes In]. rewrite Forall_forall. split.
  - intro H. split; [apply H; auto|]. intros c Hc k' a' Hin. apply H. right.
    apply in_flat_map. eauto.
  - intros [H1 H2] k' a' [E|Hin].
    + inversion E; subst. auto.
    + apply in_flat_map in Hin as (c & Hc & Hin). eapply H2; eauto.
Qed.

Lemma nodewise_mod R k a a' ch ch' :
  R k a a' -> Forall2 (nodewise R) ch ch' -> nodewise R (Mod k a ch) (Mod k a' ch').
Proof.
  intros HR H. unfold nodewise. cbn [nodes]. constructor; [split; auto|].
  induction H; cbn [flat_map]; [constructor|]. apply Forall2_app; auto.
Qed.

Lemma until_error_ok (f : module V -> module V * option exn) R l :
  Forall (fun m => snd (f m) = None /\ nodewise R m (fst (f m))) l ->
  snd (until_error f l) = None /\ Forall2 (nodewise R) l (fst (until_error f l)).
Proof.
  induction 1 as [|m l [H1 H2] F [IH1 IH2]]; [split; [reflexivity|constructor]|].
  cbn [until_error]. destruct (f m) as [m' r]. cbn [fst snd] in *. subst r.
  destruct (until_error f l) as [t' r]. cbn [fst snd] in *. subst r. split; [reflexivity|]. constructor; auto.
Qed.

(** Patching. *)
Definition patched (k : kind V) (a a' : option (attrs V)) : Prop :=
  exists b, a' = Some b /\ streaming b = false /\
    match k with
    | KConv _ => hooks b = S (old_hooks a) /\ stream_buffer b = no_buffers
    | _ => hooks b = old_hooks a /\ stream_buffer b = old_buffers a
    end.

Lemma patch_ok m : supported m -> snd (patch m) = None /\ nodewise patched m (fst (patch m)).
Proof.
  induction m as [k a ch IH] using module_ind'. intro S. apply every_mod in S as [Sk Sc].
  assert (F : Forall (fun m => snd (patch m) = None /\ nodewise patched m (fst (patch m))) ch).
  { rewrite Forall_forall in *. intros m Hm. apply IH; [exact Hm|exact (Sc m Hm)]. }
  apply until_error_ok in F as [F1 F2]. cbn [patch].
  destruct (until_error patch ch) as [ch' r]. cbn [fst snd] in *. subst r.
  destruct k; cbn [patch_module fst snd]; try congruence; (split; [reflexivity|]);
    (apply nodewise_mod; [|exact F2]); eexists; (split; [reflexivity|]); repeat split.
Qed.

Lemma until_error_err (f : module V -> module V * option exn) l :
  (forall m, In m l -> snd (f m) = None \/ snd (f m) = Some NotImplementedError) ->
  (exists m, In m l /\ snd (f m) = Some NotImplementedError) ->
  snd (until_error f l) = Some NotImplementedError.
Proof.
  induction l as [|m l IH]; intros H (m0 & Hin & E); [destruct Hin|].
  cbn [until_error]. pose proof (H m (or_introl eq_refl)) as Hm.
  destruct (f m) as [m' [e|]] eqn:Ef; cbn [snd] in *.
  - destruct Hm as [Hm|Hm]; congruence.
  - destruct Hin as [->|Hin]; [rewrite Ef in E; discriminate|].
    assert (K : snd (until_error f l) = Some NotImplementedError).
    { apply IH; [intros; apply H; right; auto|eauto]. }
    destruct (until_error f l) as [t' r]. exact K.
Qed.

Lemma until_error_none (f : module V -> module V * option exn) l :
  (forall m, In m l -> snd (f m) = None) -> snd (until_error f l) = None.
Proof.
  induction l as [|m l IH]; intro H; [reflexivity|]. cbn [until_error].
  pose proof (H m (or_introl eq_refl)) as Hm. destruct (f m) as [m' r]. cbn in Hm. subst r.
  specialize (IH (fun x Hx => H x (or_intror Hx))). destruct (until_error f l). exact IH.
Qed.

Lemma patch_error m :
  (supported m -> snd (patch m) = None) /\ (~ supported m -> snd (patch m) = Some NotImplementedError).
Proof.
  split; [intro S; apply patch_ok; auto|].
  induction m as [k a ch IH] using module_ind'. intro S.
  assert (D : Forall supported ch \/ ~ Forall supported ch).
  { assert (Dm : forall m, supported m \/ ~ supported m).
    { clear. induction m as [k a ch IH] using module_ind'.
      assert (Dc : Forall supported ch \/ ~ Forall supported ch).
      { induction IH as [|c ch [Hc|Hc] IHl [IHc|IHc]]; [left; constructor|left; auto|..];
          right; intro F; inversion F; auto. }
      unfold supported. rewrite every_mod.
      destruct k; (tauto || (destruct Dc as [Dc|Dc]; [left; split; [discriminate|exact Dc]|right; tauto])). }
    clear - Dm. induction ch as [|c ch IH]; [left; constructor|].
    destruct (Dm c) as [Hc|Hc], IH as [IH|IH]; [left; auto|..]; right; intro F; inversion F; auto. }
  cbn [patch]. destruct D as [D|D].
  - assert (E : snd (until_error patch ch) = None).
    { apply until_error_none. intros m Hm. rewrite Forall_forall in D. apply patch_ok; auto. }
    destruct (until_error patch ch) as [ch' r]. cbn in E. subst r.
    destruct k; try reflexivity; exfalso; apply S; apply every_mod; (split; [discriminate|exact D]).
  - assert (E : snd (until_error patch ch) = Some NotImplementedError).
    { assert (Dm : forall m, supported m \/ ~ supported m).
      { clear. induction m as [k a ch IH] using module_ind'.
        assert (Dc : Forall supported ch \/ ~ Forall supported ch).
        { induction IH as [|c ch [Hc|Hc] IHl [IHc|IHc]]; [left; constructor|left; auto|..];
            right; intro F; inversion F; auto. }
        unfold supported. rewrite every_mod.
        destruct k; (tauto || (destruct Dc as [Dc|Dc]; [left; split; [discriminate|exact Dc]|right; tauto])). }
      rewrite Forall_forall in IH. apply until_error_err.
      - intros m Hm. destruct (Dm m) as [K|K]; [left; apply patch_ok; auto|right; apply IH; auto].
      - clear S. assert (X : exists m, In m ch /\ ~ supported m).
        { clear IH. induction ch as [|c ch IHc]; [exfalso; apply D; constructor|].
          destruct (Dm c) as [Hc|Hc]; [|exists c; split; [left; auto|auto]].
          destruct IHc as (m & Hm & Hs); [intro F; apply D; auto|]. exists m. split; [right; auto|auto]. }
        destruct X as (m & Hm & Hs). exists m. auto. }
    destruct (until_error patch ch) as [ch' r]. cbn in E. subst r. reflexivity.
Qed.

(** Switching. *)
Definition switched (b : bool) (k : kind V) (a a' : option (attrs V)) : Prop :=
  exists x, a = Some x /\ a' = Some (mkAttrs b (hooks x) (stream_buffer x)).

Lemma set_online_ok b m : equipped m -> snd (set_online b m) = None /\ nodewise (switched b) m (fst (set_online b m)).
Proof.
  induction m as [k a ch IH] using module_ind'. intro S. apply every_mod in S as [Sk Sc].
  assert (F : Forall (fun m => snd (set_online b m) = None /\ nodewise (switched b) m (fst (set_online b m))) ch).
  { rewrite Forall_forall in *. intros m Hm. apply IH; [exact Hm|exact (Sc m Hm)]. }
  apply until_error_ok in F as [F1 F2].
  destruct a as [a|]; [|congruence]. cbn [set_online].
  destruct (until_error (set_online b) ch) as [ch' r]. cbn [fst snd] in *. subst r.
  split; [reflexivity|]. apply nodewise_mod; [exists a; auto|exact F2].
Qed.

Lemma Forall2_trans {A B C} (R1 : A -> B -> Prop) (R2 : B -> C -> Prop) (R3 : A -> C -> Prop) l1 l2 l3 :
  (forall a b c, R1 a b -> R2 b c -> R3 a c) -> Forall2 R1 l1 l2 -> Forall2 R2 l2 l3 -> Forall2 R3 l1 l3.
Proof.
  intros H H1. revert l3. induction H1; intros l3 H2; inversion H2; subst; constructor; eauto.
Qed.

Lemma Forall2_refl {A} (R : A -> A -> Prop) l : Forall (fun a => R a a) l -> Forall2 R l l.
Proof. induction 1; constructor; auto. Qed.

Lemma Forall2_In_r {A B} (R : A -> B -> Prop) l l' b : Forall2 R l l' -> In b l' -> exists a, In a l /\ R a b.
Proof.
  induction 1 as [|x y l l' H F IH]; intros []; [subst; exists x; split; [left; auto|auto]|].
  destruct IH as (a & Ha & HR); auto. exists a. split; [right; auto|auto].
Qed.

Lemma nodewise_equipped R m m' : nodewise R m m' -> (forall k a a', R k a a' -> a' <> None) -> equipped m'.
Proof.
  intros H HR k a Hin. destruct (Forall2_In_r _ _ _ _ H Hin) as (x & _ & Hx). cbn in Hx. eapply HR. apply Hx.
Qed.

Lemma nodewise_supported R m m' : nodewise R m m' -> supported m -> supported m'.
Proof.
  intros H S k a Hin. destruct (Forall2_In_r _ _ _ _ H Hin) as ((k0 & a0) & Hx & E & _). cbn in E. subst k0.
  exact (S k a0 Hx).
Qed.

(** Only buffers change. *)
Definition like (b : bool) (h : nat) (a : option (attrs V)) : Prop := exists buf, a = Some (mkAttrs b h buf).
Definition state_of (h : kind V -> nat) (b : bool) m : Prop := every (fun k a => like b (h k) a) m.

Lemma state_equipped h b m : state_of h b m -> equipped m.
Proof. intros H k a Hin. destruct (H k a Hin) as [buf ->]. discriminate. Qed.

Lemma set_online_state h b b' m : state_of h b m -> state_of h b' (fst (set_online b' m)).
Proof.
  intros H. destruct (set_online_ok b' m (state_equipped h b m H)) as [_ N].
  intros k a Hin. destruct (Forall2_In_r _ _ _ _ N Hin) as ((k1 & a1) & H1 & E1 & (x & E2 & E3)).
  cbn in E1, E2, E3. subst. destruct (H k1 (Some x) H1) as [buf E]. inversion E; subst. cbn. eexists. reflexivity.
Qed.

Lemma post_hooks_same n a mt tmp a' :
  post_hooks n a mt tmp = Ok a' -> streaming (V := V) a' = streaming a /\ hooks a' = hooks a.
Proof.
  revert a tmp. induction n as [|n IH]; intros a tmp; cbn [post_hooks]; [intro H; inversion H; auto|].
  unfold post_hook_any. destruct (streaming a) eqn:S.
  - destruct tmp as [b|]; cbn [bind]; [|discriminate]. intro H. apply IH in H. cbn in H. try rewrite S in H. exact H.
  - cbn [bind]. intro H. apply IH in H. try rewrite S in H. exact H.
Qed.

Lemma node_call_like (c : conv_cfg V) b h a t y a' : like b h a -> node_call c a t = Ok (y, a') -> like b h a'.
Proof.
  intros [buf ->]. unfold node_call. destruct (pre_hooks _ c _ t) as [[w rows|x]|]; cbn [bind]; [| |discriminate].
  - destruct (torch_conv1d _ _ _ _) as [[k out]|]; cbn [bind]; [|discriminate]. intro H; inversion H; subst.
    eexists; reflexivity.
  - destruct (conv1d c x) as [[z tmp]|]; cbn [bind]; [|discriminate].
    destruct (post_hooks _ _ _ _) as [a2|] eqn:E; cbn [bind]; [|discriminate]. intro H; inversion H; subst.
    apply post_hooks_same in E as [E1 E2]. cbn in E1, E2. exists (stream_buffer a2). destruct a2; cbn in *; subst. reflexivity.
Qed.

Lemma Forall_list_set {A} (Q : A -> Prop) l i x : Forall Q l -> Q x -> Forall Q (list_set l i x).
Proof. intros H Hx. revert i. induction H; intros [|i]; cbn; constructor; auto. Qed.

Lemma call_at_state h b p t m : state_of h b m -> state_of h b (call_at p t m).
Proof.
  revert m. induction p as [|i p IH]; intros [k a ch] H; cbn [call_at].
  - destruct k; auto; destruct (node_call c a t) as [[y a']|] eqn:E; auto;
      apply every_mod in H as [H1 H2]; apply every_mod; (split; [eapply node_call_like; eauto|exact H2]).
  - destruct (nth_error ch i) as [c|] eqn:E; auto.
    apply every_mod in H as [H1 H2]. apply every_mod. split; [exact H1|].
    apply Forall_list_set; [exact H2|]. apply IH. rewrite Forall_forall in H2. apply H2. eapply nth_error_In; eauto.
Qed.

Lemma events_state h es m b :
  state_of h b m ->
  state_of h (fold_left (fun b e => match e with Switch (Online b') => b' | Switch Offline => false | _ => b end) es b) (events es m).
Proof.
  revert m b. induction es as [|e es IH]; intros m b H; cbn [events fold_left]; [exact H|].
  destruct e as [[b'| |]|p t]; apply IH; cbn [do_switch].
  - eapply set_online_state; eauto.
  - destruct m as [k [a|] ch]; exact H.
  - eapply set_online_state; eauto.
  - apply call_at_state. exact H.
Qed.

(** Patching [n] times. *)
Definition patched_n (n : nat) (k : kind V) (a a' : option (attrs V)) : Prop :=
  exists b, a' = Some b /\ streaming b = false /\
    match k with
    | KConv _ => hooks b = n + old_hooks a /\ stream_buffer b = no_buffers
    | _ => hooks b = old_hooks a /\ stream_buffer b = old_buffers a
    end.

Lemma patches_ok n m : supported m ->
  snd (patches (S n) m) = None /\ nodewise (patched_n (S n)) m (fst (patches (S n) m)).
Proof.
  revert m. induction n as [|n IH]; intros m S; destruct (patch_ok m S) as [E N].
  - change (patches 1 m) with (match patch m with (m', Some e) => (m', Some e) | (m', None) => (m', None) end).
    destruct (patch m) as [m' r]. cbn [fst snd] in *. subst r. split; [reflexivity|exact N].
  - change (patches (Datatypes.S (Datatypes.S n)) m) with
      (match patch m with (m', Some e) => (m', Some e) | (m', None) => patches (Datatypes.S n) m' end).
    destruct (patch m) as [m' r]. cbn [fst snd] in *. subst r.
    destruct (IH m' (nodewise_supported _ _ _ N S)) as [E' N']. split; [exact E'|].
    eapply Forall2_trans; [|exact N|exact N'].
    intros [k1 a1] [k2 a2] [k3 a3]. cbn [fst snd]. intros [E1 (b & -> & H1 & H2)] [E2 (b' & -> & H3 & H4)]. subst k2 k3.
    split; [reflexivity|]. exists b'. split; [reflexivity|]. split; [exact H3|].
    destruct k1; cbn [old_hooks old_buffers] in *; destruct H2 as [H2 H5], H4 as [H4 H6]; split; try congruence.
    rewrite H4, H2. lia.
Qed.

(* ------------------------------------------------------------------ calls *)

Lemma node_call_offline_plain (c : conv_cfg V) n buf w rows :
  node_call c (Some (mkAttrs false n buf)) (Plain w rows) =
  do '(t, _) <- node_call c None (Plain w rows); Ok (t, Some (mkAttrs false n buf)).
Proof.
  unfold node_call. cbn [hooks bind].
  assert (E : pre_hooks n c (mkAttrs false n buf) (Plain w rows) = Ok (Plain w rows)).
  { generalize (mkAttrs false n buf) (eq_refl : streaming (mkAttrs false n buf) = false). intros a Ha.
    induction n as [|n IH]; cbn [pre_hooks]; [reflexivity|]. unfold pre_hook_any. rewrite Ha. cbn [bind]. exact IH. }
  rewrite E. cbn [bind]. destruct (torch_conv1d c (padn c) w rows) as [[k out]|e]; reflexivity.
Qed.

Lemma node_call_offline_stream (c : conv_cfg V) n buf x :
  node_call c (Some (mkAttrs false (S n) buf)) (Stream x) = Err RuntimeError.
Proof. reflexivity. Qed.

Lemma node_call_online_plain (c : conv_cfg V) n buf w rows :
  node_call c (Some (mkAttrs true (S n) buf)) (Plain w rows) = Err RuntimeError.
Proof. reflexivity. Qed.

Lemma node_call_online_stream (c : conv_cfg V) buf x :
  node_call c (Some (mkAttrs true 1 buf)) (Stream x) =
  do '(y, buf') <- conv_call c buf x; Ok (Stream y, Some (mkAttrs true 1 buf')).
Proof.
  unfold node_call, conv_call. cbn [hooks pre_hooks bind]. unfold pre_hook_any. cbn [streaming stream_buffer].
  destruct (pre_hook c buf x) as [x'|e]; cbn [bind]; [|reflexivity].
  destruct (conv1d c x') as [[y tmp]|e]; cbn [bind]; reflexivity.
Qed.

Lemma post_hooks_twice n (buf : buffers V) (mt : meta) tmp h :
  post_hooks (S (S n)) (mkAttrs true h buf) mt (Some tmp) = Err (A := attrs V) TypeError.
Proof. reflexivity. Qed.

Lemma node_call_twice (c : conv_cfg V) n buf x r :
  node_call c (Some (mkAttrs true (S (S n)) buf)) (Stream x) <> Ok r.
Proof.
  unfold node_call. cbn [hooks].
  destruct (pre_hooks (S (S n)) c (mkAttrs true (S (S n)) buf) (Stream x)) as [[w rows|x']|e] eqn:E; cbn [bind];
    [|destruct (conv1d c x') as [[y tmp]|e]; cbn [bind]; try discriminate; rewrite post_hooks_twice; discriminate|discriminate].
  exfalso. revert E. generalize (mkAttrs true (S (S n)) buf) (eq_refl : streaming (mkAttrs true (S (S n)) buf) = true).
  intros a Ha. generalize (S (S n)) as k. intro k. revert x. induction k as [|k IH]; intros x; cbn [pre_hooks]; [discriminate|].
  unfold pre_hook_any at 1. rewrite Ha. destruct (pre_hook c (stream_buffer a) x) as [x'|e]; cbn [bind]; [apply IH|discriminate].
Qed.

(** After patching a fresh tree [n] times and any history. *)
Lemma history n es m k a :
  unpatched m -> supported m -> In (k, a) (nodes (events es (fst (patches (S n) m)))) ->
  like (mode_after es) (match k with KConv _ => S n | _ => 0 end) a.
Proof.
  intros U S Hin. destruct (patches_ok n m S) as [_ N].
  set (m1 := fst (patches (Datatypes.S n) m)) in *. clearbody m1.
  assert (F : state_of (fun k => match k with KConv _ => Datatypes.S n | _ => 0 end) false m1).
  { intros k1 a1 H1. destruct (Forall2_In_r _ _ _ _ N H1) as ((k0 & a0) & H0 & E0 & (b & E2 & E3 & E4)).
    cbn in E0, E2, E3, E4. subst k1 a1. pose proof (U k0 a0 H0) as Ua. cbn in Ua. subst a0. cbn [old_hooks] in E4.
    exists (stream_buffer b). destruct b as [bs bh bb]. cbn [streaming hooks stream_buffer] in *.
    destruct k0; destruct E4 as [E4 _]; subst; rewrite ?Nat.add_0_r; reflexivity. }
  exact (events_state _ es m1 false F k a Hin).
Qed.

Lemma matrix es m c a :
  unpatched m -> supported m -> In (KConv c, a) (nodes (events es (fst (patch m)))) ->
  (mode_after es = false ->
     (forall x, node_call c a (Stream x) = Err RuntimeError) /\
     (forall w rows, node_call c a (Plain w rows) = do '(t, _) <- node_call c None (Plain w rows); Ok (t, a))) /\
  (mode_after es = true ->
     (forall w rows, node_call c a (Plain w rows) = Err RuntimeError) /\
     (exists buf, a = Some (mkAttrs true 1 buf) /\ forall x,
        node_call c a (Stream x) = do '(y, buf') <- conv_call c buf x; Ok (Stream y, Some (mkAttrs true 1 buf')))).
Proof.
  intros U S Hin. destruct (patch_ok m S) as [E _].
  assert (P : fst (patches 1 m) = fst (patch m)).
  { cbn [patches]. destruct (patch m) as [m' r]. cbn in *. subst r. reflexivity. }
  rewrite <- P in Hin. destruct (history 0 es m _ a U S Hin) as [buf ->].
  split; intros ->; split; intros; try reflexivity.
  - apply node_call_offline_plain.
  - exists buf. split; [reflexivity|]. intro x. apply node_call_online_stream.
Qed.

Lemma twice n es m c a :
  unpatched m -> supported m -> In (KConv c, a) (nodes (events es (fst (patches (S (S n)) m)))) ->
  (mode_after es = true -> forall t r, node_call c a t <> Ok r) /\
  (mode_after es = false ->
     (forall x, node_call c a (Stream x) = Err RuntimeError) /\
     (forall w rows, node_call c a (Plain w rows) = do '(t, _) <- node_call c None (Plain w rows); Ok (t, a))).
Proof.
  intros U S Hin. destruct (history (Datatypes.S n) es m _ a U S Hin) as [buf ->].
  split; intros ->.
  - intros [w rows|x] r; [discriminate|apply node_call_twice].
  - split; intros; [reflexivity|apply node_call_offline_plain].
Qed.

(** Every module is in the requested mode. *)
Lemma all_in_mode es m k a :
  unpatched m -> supported m -> In (k, a) (nodes (events es (fst (patch m)))) ->
  exists x, a = Some x /\ streaming x = mode_after es.
Proof.
  intros U S Hin. destruct (patch_ok m S) as [E _].
  assert (P : fst (patches 1 m) = fst (patch m)).
  { cbn [patches]. destruct (patch m) as [m' r]. cbn in *. subst r. reflexivity. }
  rewrite <- P in Hin. destruct (history 0 es m _ a U S Hin) as [buf ->]. eexists. split; reflexivity.
Qed.

End ModesProofs.

(** Proofs about pickling. *)

From Coq Require Import String List ZArith Bool Lia.
From Verif Require Import Py Meta Named Pickle PickleSpec.
Import ListNotations.

Section PickleProofs.
Context {V : Type}.

(** Induction over the parts of a value. *)
Section Ind.
Context (P : pyv V -> Prop).
Context (HA : forall a, P (Atom a)) (HS : forall b l, Forall P l -> P (PSeq b l)) (HP : forall t n, P (Plain t n))
  (HT0 : forall t n, P (Stream t n None)) (HT : forall t n m, P m -> P (Stream t n (Some m)))
  (HX0 : forall a, P a -> P (Proxy a None)) (HX : forall a o, P a -> P o -> P (Proxy a (Some o)))
  (HM : forall sl, Forall (fun p => P (snd p)) sl -> P (MetaObj sl))
  (HO : forall c fs es, Forall (fun p => P (snd p)) fs -> Forall (fun p => P (snd p)) es -> P (Obj c fs es)).
Fixpoint pyv_parts (v : pyv V) : P v :=
  let fields := fix go (l : list (string * pyv V)) : Forall (fun p => P (snd p)) l :=
    match l with [] => Forall_nil _ | p :: t => Forall_cons p (pyv_parts (snd p)) (go t) end in
  match v with
  | Atom a => HA a
  | PSeq b l => HS b l ((fix go (l : list (pyv V)) : Forall P l :=
                           match l with [] => Forall_nil _ | x :: t => Forall_cons x (pyv_parts x) (go t) end) l)
  | Plain t n => HP t n
  | Stream t n None => HT0 t n
  | Stream t n (Some m) => HT t n m (pyv_parts m)
  | Proxy a None => HX0 a (pyv_parts a)
  | Proxy a (Some o) => HX a o (pyv_parts a) (pyv_parts o)
  | MetaObj sl => HM sl (fields sl)
  | Obj c fs es => HO c fs es (fields fs) (fields es)
  end.
End Ind.

Fixpoint dumps_list (l : list (pyv V)) : res (list (pk V)) :=
  match l with [] => Ok [] | x :: t => do k <- dumps x; do r <- dumps_list t; Ok (k :: r) end.
Fixpoint dumps_fields (l : list (string * pyv V)) : res (list (string * pk V)) :=
  match l with [] => Ok [] | (s, x) :: t => do k <- dumps x; do r <- dumps_fields t; Ok ((s, k) :: r) end.
Fixpoint loads_list (l : list (pk V)) : res (list (pyv V)) :=
  match l with [] => Ok [] | x :: t => do k <- loads x; do r <- loads_list t; Ok (k :: r) end.
Fixpoint loads_fields (l : list (string * pk V)) : res (list (string * pyv V)) :=
  match l with [] => Ok [] | (s, x) :: t => do k <- loads x; do r <- loads_fields t; Ok ((s, k) :: r) end.

Lemma dumps_seq b l : dumps (PSeq b l) = do ks <- dumps_list l; Ok (KSeq b ks).
Proof. reflexivity. Qed.
Lemma dumps_meta sl : dumps (MetaObj sl) = do ks <- dumps_fields sl; Ok (KMeta ks).
Proof. reflexivity. Qed.
Lemma dumps_obj c fs es : dumps (Obj c fs es) = do ke <- dumps_fields es; do kf <- dumps_fields fs; Ok (KObj c kf ke).
Proof. reflexivity. Qed.
Lemma loads_seq b l : loads (KSeq b l) = do ks <- loads_list l; Ok (PSeq b ks).
Proof. reflexivity. Qed.
Lemma loads_meta sl : loads (KMeta sl) = do ks <- loads_fields sl; Err TypeError.
Proof. reflexivity. Qed.
Lemma loads_obj c fs es : loads (KObj c fs es) = do ve <- loads_fields es; do vf <- loads_fields fs; Ok (Obj c vf ve).
Proof. reflexivity. Qed.

Lemma bind_ok {A B} (r : res A) (f : A -> res B) b : bind r f = Ok b -> exists a, r = Ok a /\ f a = Ok b.
Proof. destruct r; cbn; intros H; [eauto|discriminate]. Qed.

Lemma no_names n : has_names n = false <-> forall s, ~ In (Some s) n.
Proof.
  induction n as [|a n IH]; cbn; [split; [intros _ s []|reflexivity]|].
  destruct a; cbn; split; intros H.
  - discriminate.
  - exfalso. apply (H s). now left.
  - intros s [E|E]; [discriminate|]. exact (proj1 IH H s E).
  - apply IH. intros s E. apply (H s). now right.
Qed.
Lemma no_names_repeat n : has_names n = false -> n = repeat None (length n).
Proof. induction n as [|[s|] n IH]; cbn; intros H; [reflexivity|discriminate|]. now rewrite <- IH. Qed.

(* ---- a StreamTensor cannot be saved *)

Lemma dumps_stream t n (m : option (pyv V)) :
  dumps (Stream t n m) = Err (match m with Some _ => if has_names n then RuntimeError else AttributeError | None => AttributeError end).
Proof. destruct m; cbn; [|reflexivity]. destruct (has_names n); reflexivity. Qed.

Lemma dumps_list_in l x : In x l -> (exists e, dumps x = Err e) -> exists e, dumps_list l = Err e.
Proof.
  intros HI [e He]. induction l as [|a l IH]; [destruct HI|]. cbn. destruct HI as [H|H].
  - subst. rewrite He. cbn. eauto.
  - destruct (dumps a); cbn; [|eauto]. destruct (IH H) as [e' E]. rewrite E. cbn. eauto.
Qed.
Lemma dumps_fields_in l s x : In (s, x) l -> (exists e, dumps x = Err e) -> exists e, dumps_fields l = Err e.
Proof.
  intros HI [e He]. induction l as [|[s' a] l IH]; [destruct HI|]. cbn. destruct HI as [H|H].
  - injection H as -> ->. rewrite He. cbn. eauto.
  - destruct (dumps a); cbn; [|eauto]. destruct (IH H) as [e' E]. rewrite E. cbn. eauto.
Qed.

Lemma inside_dumps (x v : pyv V) : inside x v -> (exists e, dumps x = Err e) -> exists e, dumps v = Err e.
Proof.
  intros HI He. induction HI as [|b l y Hy _ IH|t n m _ IH|a o _ IH|a o _ IH|sl s y Hy _ IH|c fs es s y Hy _ IH|c fs es s y Hy _ IH].
  - exact He.
  - rewrite dumps_seq. destruct (dumps_list_in l y Hy IH) as [e E]. rewrite E. cbn. eauto.
  - rewrite dumps_stream. eauto.
  - destruct IH as [e E]. cbn. rewrite E. cbn. eauto.
  - destruct IH as [e E]. cbn. destruct (dumps a); cbn; [|eauto]. rewrite E. cbn. eauto.
  - rewrite dumps_meta. destruct (dumps_fields_in sl s y Hy IH) as [e E]. rewrite E. cbn. eauto.
  - rewrite dumps_obj. destruct (dumps_fields_in fs s y Hy IH) as [e E]. destruct (dumps_fields es); cbn; [|eauto]. rewrite E. cbn. eauto.
  - rewrite dumps_obj. destruct (dumps_fields_in es s y Hy IH) as [e E]. rewrite E. cbn. eauto.
Qed.

Theorem stream_inside t n m (v : pyv V) : inside (Stream t n m) v -> exists e, dumps v = Err e.
Proof. intros H. apply (inside_dumps _ _ H). rewrite dumps_stream. eauto. Qed.

(* ---- metadata cannot be loaded *)

Lemma loads_list_in l k x : nth_error l k = Some x -> (exists e, loads x = Err e) -> exists e, loads_list l = Err e.
Proof.
  intros HI [e He]. revert k HI. induction l as [|a l IH]; intros [|k] HI; try discriminate; cbn in *.
  - injection HI as ->. rewrite He. cbn. eauto.
  - destruct (loads a); cbn; [|eauto]. destruct (IH k HI) as [e' E]. rewrite E. cbn. eauto.
Qed.
Lemma loads_fields_in l s x : In (s, x) l -> (exists e, loads x = Err e) -> exists e, loads_fields l = Err e.
Proof.
  intros HI [e He]. induction l as [|[s' a] l IH]; [destruct HI|]. cbn. destruct HI as [H|H].
  - injection H as -> ->. rewrite He. cbn. eauto.
  - destruct (loads a); cbn; [|eauto]. destruct (IH H) as [e' E]. rewrite E. cbn. eauto.
Qed.
Lemma dumps_list_out l ks y : dumps_list l = Ok ks -> In y l -> exists k, In k ks /\ dumps y = Ok k.
Proof.
  revert ks. induction l as [|a l IH]; intros ks H HI; [destruct HI|]. cbn in H. destruct (bind_ok _ _ _ H) as [ka [E1 H1]].
  destruct (bind_ok _ _ _ H1) as [kt [E2 H2]]. injection H2 as <-. destruct HI as [HI|HI].
  - subst. exists ka. split; [now left|exact E1].
  - destruct (IH kt E2 HI) as [k [K1 K2]]. exists k. split; [now right|exact K2].
Qed.
Lemma dumps_fields_out l ks s y : dumps_fields l = Ok ks -> In (s, y) l -> exists k, In (s, k) ks /\ dumps y = Ok k.
Proof.
  revert ks. induction l as [|[s' a] l IH]; intros ks H HI; [destruct HI|]. cbn in H. destruct (bind_ok _ _ _ H) as [ka [E1 H1]].
  destruct (bind_ok _ _ _ H1) as [kt [E2 H2]]. injection H2 as <-. destruct HI as [HI|HI].
  - injection HI as -> ->. exists ka. split; [now left|exact E1].
  - destruct (IH kt E2 HI) as [k [K1 K2]]. exists k. split; [now right|exact K2].
Qed.

Definition unloadable (v : pyv V) : Prop := forall k, dumps v = Ok k -> exists e, loads k = Err e.

Lemma inside_loads (x v : pyv V) : inside x v -> unloadable x -> unloadable v.
Proof.
  intros HI Hx. induction HI as [|b l y Hy _ IH|t n m _ IH|a o _ IH|a o _ IH|sl s y Hy _ IH|c fs es s y Hy _ IH|c fs es s y Hy _ IH];
    intros k Hk.
  - exact (Hx k Hk).
  - rewrite dumps_seq in Hk. destruct (bind_ok _ _ _ Hk) as [ks [E1 H1]]. injection H1 as <-. rewrite loads_seq.
    destruct (dumps_list_out l ks y E1 Hy) as [ky [K1 K2]]. destruct (In_nth_error _ _ K1) as [i Hi].
    destruct (loads_list_in ks i ky Hi (IH ky K2)) as [e E]. rewrite E. cbn. eauto.
  - rewrite dumps_stream in Hk. discriminate.
  - cbn in Hk. destruct (bind_ok _ _ _ Hk) as [ka [E1 H1]]. destruct (IH ka E1) as [e E].
    destruct o as [o|]; [destruct (bind_ok _ _ _ H1) as [ko [E2 H2]]; injection H2 as <-|injection H1 as <-]; cbn; rewrite E; cbn; eauto.
  - cbn in Hk. destruct (bind_ok _ _ _ Hk) as [ka [E1 H1]]. destruct (bind_ok _ _ _ H1) as [ko [E2 H2]]. injection H2 as <-. cbn.
    destruct (loads ka); cbn; [|eauto]. destruct (loads ko); cbn; eauto.
  - rewrite dumps_meta in Hk. destruct (bind_ok _ _ _ Hk) as [ks [E1 H1]]. injection H1 as <-. rewrite loads_meta.
    destruct (loads_fields ks); cbn; eauto.
  - rewrite dumps_obj in Hk. destruct (bind_ok _ _ _ Hk) as [ke [E1 H1]]. destruct (bind_ok _ _ _ H1) as [kf [E2 H2]]. injection H2 as <-.
    rewrite loads_obj. destruct (dumps_fields_out fs kf s y E2 Hy) as [ky [K1 K2]].
    destruct (loads_fields_in kf s ky K1 (IH ky K2)) as [e E]. destruct (loads_fields ke); cbn; [|eauto]. rewrite E. cbn. eauto.
  - rewrite dumps_obj in Hk. destruct (bind_ok _ _ _ Hk) as [ke [E1 H1]]. destruct (bind_ok _ _ _ H1) as [kf [E2 H2]]. injection H2 as <-.
    rewrite loads_obj. destruct (dumps_fields_out es ke s y E1 Hy) as [ky [K1 K2]].
    destruct (loads_fields_in ke s ky K1 (IH ky K2)) as [e E]. rewrite E. cbn. eauto.
Qed.

Lemma unloadable_transport v : unloadable v -> exists e, transport v = Err e.
Proof. intros H. unfold transport. destruct (dumps v) as [k|e] eqn:E; cbn; [exact (H k E)|eauto]. Qed.

Theorem proxy_inside a o (v : pyv V) : inside (Proxy a o) v -> exists e, transport v = Err e.
Proof.
  intros H. apply unloadable_transport. apply (inside_loads _ _ H). intros k Hk. cbn in Hk. destruct (bind_ok _ _ _ Hk) as [ka [E1 H1]].
  destruct o as [o|]; [destruct (bind_ok _ _ _ H1) as [ko [E2 H2]]; injection H2 as <-|injection H1 as <-]; cbn; destruct (loads ka); cbn; eauto.
  destruct (loads ko); cbn; eauto.
Qed.
Theorem metaobj_inside sl (v : pyv V) : inside (MetaObj sl) v -> exists e, transport v = Err e.
Proof.
  intros H. apply unloadable_transport. apply (inside_loads _ _ H). intros k Hk. rewrite dumps_meta in Hk.
  destruct (bind_ok _ _ _ Hk) as [ks [E1 H1]]. injection H1 as <-. rewrite loads_meta. destruct (loads_fields ks); cbn; eauto.
Qed.
Theorem names_inside t n s (v : pyv V) : inside (Plain t n) v -> In (Some s) n -> exists e, dumps v = Err e.
Proof.
  intros H HI. apply (inside_dumps _ _ H). cbn. destruct (has_names n) eqn:E; [eauto|]. exfalso. exact (proj1 (no_names n) E s HI).
Qed.

(* ---- everything else arrives unchanged *)

Lemma portable_part (x v : pyv V) : (forall y, inside y x -> inside y v) -> portable v -> portable x.
Proof.
  intros H [P1 [P2 [P3 P4]]]. repeat split.
  - intros t n m Hi. exact (P1 t n m (H _ Hi)).
  - intros a o Hi. exact (P2 a o (H _ Hi)).
  - intros sl Hi. exact (P3 sl (H _ Hi)).
  - intros t n s Hi. exact (P4 t n s (H _ Hi)).
Qed.
Lemma named_part (x v : pyv V) : (forall y, inside y x -> inside y v) -> one_name_each v -> one_name_each x.
Proof. intros H P t n Hi. exact (P t n (H _ Hi)). Qed.

Lemma transport_list l : Forall (fun v : pyv V => exists k, dumps v = Ok k /\ loads k = Ok v) l ->
  exists ks, dumps_list l = Ok ks /\ loads_list ks = Ok l.
Proof.
  induction 1 as [|x l [k [K1 K2]] _ [ks [E1 E2]]]; [exists []; split; reflexivity|].
  exists (k :: ks). cbn. rewrite K1, E1. cbn. rewrite K2, E2. split; reflexivity.
Qed.
Lemma transport_fields l : Forall (fun p : string * pyv V => exists k, dumps (snd p) = Ok k /\ loads k = Ok (snd p)) l ->
  exists ks, dumps_fields l = Ok ks /\ loads_fields ks = Ok l.
Proof.
  induction 1 as [|[s x] l [k [K1 K2]] _ [ks [E1 E2]]]; [exists []; split; reflexivity|]. cbn in K1, K2.
  exists ((s, k) :: ks). cbn. rewrite K1, E1. cbn. rewrite K2, E2. split; reflexivity.
Qed.

Lemma portable_arrives (v : pyv V) : portable v -> one_name_each v -> exists k, dumps v = Ok k /\ loads k = Ok v.
Proof.
  induction v as [a|b l IH|t n|t n|t n m IH|a IHa|a o IHa IHo|sl IH|c fs es IHf IHe] using pyv_parts; intros HP HN.
  - exists (KAtom a). split; reflexivity.
  - destruct (transport_list l) as [ks [E1 E2]].
    { rewrite Forall_forall in IH |- *. intros x Hx. apply (IH x Hx).
      - revert HP. apply portable_part. intros y Hy. exact (in_seq _ b l x Hx Hy).
      - revert HN. apply named_part. intros y Hy. exact (in_seq _ b l x Hx Hy). }
    exists (KSeq b ks). rewrite dumps_seq, loads_seq, E1, E2. split; reflexivity.
  - destruct HP as [_ [_ [_ P4]]]. exists (KTensor t). cbn.
    assert (E : has_names n = false) by (apply no_names; intros s; exact (P4 t n s (in_self _))). rewrite E. split; [reflexivity|].
    rewrite (no_names_repeat n E). unfold ndim. rewrite (HN t n (in_self _)). reflexivity.
  - exfalso. exact (proj1 HP t n None (in_self _)).
  - exfalso. exact (proj1 HP t n (Some m) (in_self _)).
  - exfalso. exact (proj1 (proj2 HP) a None (in_self _)).
  - exfalso. exact (proj1 (proj2 HP) a (Some o) (in_self _)).
  - exfalso. exact (proj1 (proj2 (proj2 HP)) sl (in_self _)).
  - destruct (transport_fields fs) as [kf [F1 F2]].
    { rewrite Forall_forall in IHf |- *. intros [s x] Hx. apply (IHf (s, x) Hx).
      - revert HP. apply portable_part. intros y Hy. exact (in_field _ c fs es s x Hx Hy).
      - revert HN. apply named_part. intros y Hy. exact (in_field _ c fs es s x Hx Hy). }
    destruct (transport_fields es) as [ke [E1 E2]].
    { rewrite Forall_forall in IHe |- *. intros [s x] Hx. apply (IHe (s, x) Hx).
      - revert HP. apply portable_part. intros y Hy. exact (in_entry _ c fs es s x Hx Hy).
      - revert HN. apply named_part. intros y Hy. exact (in_entry _ c fs es s x Hx Hy). }
    exists (KObj c kf ke). rewrite dumps_obj, loads_obj, F1, F2, E1, E2. split; reflexivity.
Qed.

Theorem transport_exact (v w : pyv V) : one_name_each v -> (transport v = Ok w <-> portable v /\ w = v).
Proof.
  intros HN. split.
  - intros H. assert (HP : portable v).
    { repeat split.
      - intros t n m Hi. destruct (stream_inside _ _ _ _ Hi) as [e E]. unfold transport in H. rewrite E in H. discriminate.
      - intros a o Hi. destruct (proxy_inside _ _ _ Hi) as [e E]. rewrite E in H. discriminate.
      - intros sl Hi. destruct (metaobj_inside _ _ Hi) as [e E]. rewrite E in H. discriminate.
      - intros t n s Hi HI. destruct (names_inside _ _ _ _ Hi HI) as [e E]. unfold transport in H. rewrite E in H. discriminate. }
    split; [exact HP|]. destruct (portable_arrives v HP HN) as [k [K1 K2]]. unfold transport in H. rewrite K1 in H. cbn in H.
    rewrite K2 in H. now injection H.
  - intros [HP ->]. destruct (portable_arrives v HP HN) as [k [K1 K2]]. unfold transport. rewrite K1. exact K2.
Qed.

(* ---- metadata, samples, collectors *)

Lemma metadata_fresh (args : pyv V) : portable args -> one_name_each args -> transport (Proxy args None) = Err KeyError.
Proof.
  intros HP HN. destruct (portable_arrives args HP HN) as [k [K1 K2]]. unfold transport. cbn. rewrite K1. cbn. rewrite K2. reflexivity.
Qed.
Lemma metadata_used (args : pyv V) sl : portable args -> one_name_each args -> (forall s x, In (s, x) sl -> portable x /\ one_name_each x) ->
  transport (Proxy args (Some (MetaObj sl))) = Err TypeError.
Proof.
  intros HP HN Hs. destruct (portable_arrives args HP HN) as [k [K1 K2]]. destruct (transport_fields sl) as [ks [E1 E2]].
  { apply Forall_forall. intros [s x] Hx. destruct (Hs s x Hx). now apply portable_arrives. }
  unfold transport. rewrite (eq_refl : dumps (Proxy args (Some (MetaObj sl))) = do ka <- dumps args; do ko <- dumps (MetaObj sl); Ok (KProxy ka (Some ko))).
  rewrite K1, dumps_meta, E1. cbn [bind].
  rewrite (eq_refl : loads (KProxy k (Some (KMeta ks))) = do _ <- loads k; do _ <- loads (KMeta ks); Err KeyError).
  rewrite K2, loads_meta, E2. reflexivity.
Qed.

Lemma sample_arrives d sos eos len idx num id file md :
  portable file -> one_name_each file -> portable md -> one_name_each md ->
  transport (sample_value (V := V) d sos eos len idx num id file md) = Ok (sample_value (V := V) d sos eos len idx num id file md).
Proof.
  intros F1 F2 M1 M2. destruct (portable_arrives file F1 F2) as [kf [A1 A2]]. destruct (portable_arrives md M1 M2) as [km [B1 B2]].
  assert (E : has_names (repeat None (ndim d)) = false).
  { apply no_names. intros s Hs. apply repeat_spec in Hs. discriminate. }
  unfold transport, sample_value. rewrite dumps_obj. cbn [dumps_fields bind]. cbn [dumps]. rewrite E. cbn [bind].
  rewrite A1. cbn [bind]. rewrite B1. cbn [bind]. rewrite loads_obj. cbn [loads_fields bind]. cbn [loads]. cbn [bind].
  rewrite A2. cbn [bind]. rewrite B2. reflexivity.
Qed.

Lemma collector_stuck s t n m entries closed : In (s, Stream t n m) entries ->
  exists e, dumps (collector_value (V := V) entries closed) = Err e.
Proof. intros H. apply (stream_inside t n m). unfold collector_value. eapply in_entry; [exact H|apply in_self]. Qed.

Lemma copy_named t n (m : pyv V) : has_names n = true -> copy_stream t n (Some m) = Err RuntimeError.
Proof. intros H. unfold copy_stream, reduce_stream. cbn. now rewrite H. Qed.
Lemma copy_unnamed t (m : pyv V) : copy_stream t (repeat None (ndim t)) (Some m) = Ok (Stream t (repeat None (ndim t)) (Some m)).
Proof.
  unfold copy_stream, reduce_stream. cbn. assert (E : has_names (repeat None (ndim t)) = false).
  { apply no_names. intros s Hs. apply repeat_spec in Hs. discriminate. }
  now rewrite E.
Qed.

End PickleProofs.

(** Proofs about StreamTensor.__torch_function__ (Dispatch.v). *)

From Coq Require Import String List ZArith Bool Lia.
From Verif Require Import Py Meta MetaSpec MetaProofs MetaSplitProofs MetaBatchProofs Named NamedSpec NamedProofs NamedIndexProofs NamedOpsProofs NamedCatProofs Dispatch.
Import ListNotations.
Open Scope list_scope.

Lemma mem_In f l : mem f l = true <-> In f l.
Proof.
  unfold mem. rewrite existsb_exists. split.
  - intros (g & H & E). apply String.eqb_eq in E. now subst g.
  - intros H. exists f. split; auto. apply String.eqb_refl.
Qed.

Section D.
Context {V : Type}.
Implicit Types (x y : @stensor V) (args : list (@arg V)) (kw : @kwargs V) (F : @raw V).

Lemma top_streams_In args kw x : In x (top_streams args kw) <-> In (AStream x) (args ++ map snd kw).
Proof.
  unfold top_streams, top. rewrite in_flat_map. split.
  - intros ([q|t n|k|l] & H & HI); cbn in HI; try destruct HI as [<-|[]]; auto; destruct HI.
  - intros H. exists (AStream x). split; auto. now left.
Qed.

(** The stream [x] is the argument or lies in it, however deep; no list among the arguments contains a stream. *)
Inductive inside (x : @stensor V) : @arg V -> Prop :=
| inside_here : inside x (AStream x)
| inside_list l a : In a l -> inside x a -> inside x (AList l).
Definition lists_hold_no_stream (l : list (@arg V)) : Prop := forall items x, In (AList items) l -> ~ inside x (AList items).

Lemma holds_stream_inside : forall a, holds_stream a = true <-> exists x, inside x a.
Proof.
  fix IH 1. intros [x|t n|k|l]; cbn [holds_stream].
  - split; [intros _; exists x; constructor|reflexivity].
  - split; [discriminate|intros (x & H); inversion H].
  - split; [discriminate|intros (x & H); inversion H].
  - assert (G : existsb holds_stream l = true <-> exists x a, In a l /\ inside x a).
    { induction l as [|a l IHl]; cbn [existsb In]; [split; [discriminate|intros (x & a & [] & _)]|].
      rewrite orb_true_iff, (IH a), IHl. split.
      - intros [(x & H)|(x & b & H & K)]; [exists x, a|exists x, b]; auto.
      - intros (x & b & [->|H] & K); [left; now exists x|right; now exists x, b]. }
    rewrite G. split; [intros (x & a & H & K); exists x; econstructor; eauto|intros (x & H); inversion H; subst; eauto].
Qed.

Lemma no_nested l : lists_hold_no_stream l <-> existsb nested_stream l = false.
Proof.
  split.
  - intros H. apply not_true_iff_false. rewrite existsb_exists. intros (a & Ha & N). destruct a as [x|t n|k|items]; try discriminate.
    apply (holds_stream_inside (AList items)) in N as (x & N). exact (H _ _ Ha N).
  - intros H items x Hi N. apply not_true_iff_false in H. apply H. rewrite existsb_exists. exists (AList items). split; [exact Hi|].
    apply (holds_stream_inside (AList items)). now exists x.
Qed.

Lemma all_eq_nochunks m0 ms : chs m0 = None -> Forall (fun m => chs m = None) ms ->
  (Forall (fun m => m = m0) ms -> all_eq m0 ms = Ok true) /\
  (~ Forall (fun m => m = m0) ms -> all_eq m0 ms = Err AttributeError).
Proof.
  intros H0 HN. induction HN as [|m ms Hm HN [IH1 IH2]]; split; intros H.
  - reflexivity.
  - exfalso. apply H. constructor.
  - inversion H as [|? ? E H']; subst. cbn [all_eq]. rewrite (proj1 (meta_eq_nochunks m0 m0 H0 H0) eq_refl). cbn [bind]. auto.
  - cbn [all_eq]. destruct (meta_dec m m0) as [->|D].
    + rewrite (proj1 (meta_eq_nochunks m0 m0 H0 H0) eq_refl). cbn [bind]. apply IH2. intros HF. apply H. constructor; auto.
    + now rewrite (proj2 (meta_eq_nochunks _ _ Hm H0) D).
Qed.

(** The check on the metadata of the arguments. *)
Lemma check_metas (ss : list (@stensor V)) : Forall (fun x => chs (smeta x) = None) ss ->
  ((forall x y, In x ss -> In y ss -> smeta x = smeta y) ->
   all_eq (hd (mkMeta [] [] [] [] None) (map smeta ss)) (tl (map smeta ss)) = Ok true) /\
  (~ (forall x y, In x ss -> In y ss -> smeta x = smeta y) ->
   all_eq (hd (mkMeta [] [] [] [] None) (map smeta ss)) (tl (map smeta ss)) = Err AttributeError).
Proof.
  intros HC. destruct ss as [|x0 ss]; cbn [map hd tl].
  - split; intros H; [reflexivity|]. exfalso. apply H. intros x y [].
  - inversion HC as [|? ? H0 HC']; subst.
    assert (HN : Forall (fun m => chs m = None) (map smeta ss)) by (apply Forall_map; exact HC').
    destruct (all_eq_nochunks (smeta x0) (map smeta ss) H0 HN) as [A B]. split; intros H.
    + apply A. apply Forall_map, Forall_forall. intros y Hy. apply H; [now right|now left].
    + apply B. intros HF. apply H. assert (G : forall x, In x (x0 :: ss) -> smeta x = smeta x0).
      { intros x [<-|Hx]; auto. rewrite Forall_map, Forall_forall in HF. auto. }
      intros x y Hx Hy. rewrite (G x Hx), (G y Hy). reflexivity.
Qed.

Lemma dname_list_eqb (a b : list dname) : list_eqb dname_eqb a b = true <-> a = b.
Proof. apply list_eqb_eq. apply dname_eqb_eq. Qed.

Definition no_chunks args kw : Prop := forall x, In (AStream x) (args ++ map snd kw) -> chs (smeta x) = None.

Lemma no_chunks_streams args kw : no_chunks args kw -> Forall (fun x => chs (smeta x) = None) (top_streams args kw).
Proof. intros H. apply Forall_forall. intros x Hx. apply H. now apply top_streams_In. Qed.

(* ---------- default rule ---------- *)

Lemma default_common F args kw : no_chunks args kw ->
  forall o, default_valid F args kw = Ok o -> forall x y, In (AStream x) (args ++ map snd kw) -> In (AStream y) (args ++ map snd kw) -> smeta x = smeta y.
Proof.
  intros HC o E. unfold default_valid in E. destruct (super_call F args kw) as [r|e]; [|discriminate]. cbn [bind] in E.
  destruct (check_metas _ (no_chunks_streams _ _ HC)) as [_ B].
  assert (D : (forall x y, In x (top_streams args kw) -> In y (top_streams args kw) -> smeta x = smeta y)).
  { destruct (all_eq (hd (mkMeta [] [] [] [] None) (map smeta (top_streams args kw))) (tl (map smeta (top_streams args kw)))) as [b|e] eqn:Ea;
      [|discriminate]. cbn [bind] in E.
    intros x y Hx Hy. destruct (meta_dec (smeta x) (smeta y)) as [|Hne]; auto. exfalso.
    assert (HH : ~ (forall x y, In x (top_streams args kw) -> In y (top_streams args kw) -> smeta x = smeta y)) by (intros G; apply Hne; auto).
    specialize (B HH). discriminate B. }
  intros x y Hx Hy. apply D; now apply top_streams_In.
Qed.

Lemma default_result F args kw y : no_chunks args kw -> default_valid F args kw = Ok (DStream y) ->
  forall x, In (AStream x) (args ++ map snd kw) -> smeta y = smeta x.
Proof.
  intros HC E x Hx. pose proof (default_common F args kw HC _ E) as HD.
  unfold default_valid in E. destruct (super_call F args kw) as [r|e]; [|discriminate]. cbn [bind] in E.
  destruct (all_eq _ _) as [b|e]; [|discriminate]. cbn [bind] in E. destruct b; [|discriminate]. cbn [negb] in E.
  destruct (map smeta (top_streams args kw)) as [|m ms] eqn:Em.
  - apply top_streams_In in Hx. apply (in_map smeta) in Hx. rewrite Em in Hx. destruct Hx.
  - assert (Hm : exists x0, In (AStream x0) (args ++ map snd kw) /\ smeta x0 = m).
    { assert (In m (map smeta (top_streams args kw))) by (rewrite Em; now left).
      apply in_map_iff in H as (x0 & E0 & H0). exists x0. split; auto. now apply top_streams_In. }
    destruct Hm as (x0 & H0 & <-).
    destruct r; try discriminate; injection E as <-; cbn [smeta]; auto.
Qed.

Lemma default_accepts F args kw x0 : no_chunks args kw -> In (AStream x0) (args ++ map snd kw) ->
  (forall x, In (AStream x) (args ++ map snd kw) -> smeta x = smeta x0) ->
  (forall t n, F (map raw_of args) (on_values raw_of kw) = Ok (RTen t n) -> default_valid F args kw = Ok (DStream (mkSt t n (smeta x0)))) /\
  (forall t n, F (map raw_of args) (on_values raw_of kw) = Ok (RSelf t n) -> default_valid F args kw = Ok (DStream (mkSt t n (smeta x0)))) /\
  (forall k, F (map raw_of args) (on_values raw_of kw) = Ok (RVal k) -> default_valid F args kw = Ok (DVal k)).
Proof.
  intros HC H0 HS. destruct (check_metas _ (no_chunks_streams _ _ HC)) as [A _].
  assert (G : forall x y, In x (top_streams args kw) -> In y (top_streams args kw) -> smeta x = smeta y).
  { intros x y Hx Hy. rewrite top_streams_In in Hx, Hy. rewrite (HS x Hx), (HS y Hy). reflexivity. }
  specialize (A G).
  assert (Hm : exists ms, map smeta (top_streams args kw) = smeta x0 :: ms).
  { destruct (top_streams args kw) as [|x ss] eqn:E.
    - apply top_streams_In in H0. rewrite E in H0. destruct H0.
    - exists (map smeta ss). cbn [map]. f_equal. apply HS. apply top_streams_In. rewrite E. now left. }
  destruct Hm as (ms & Em).
  repeat split; intros; unfold default_valid, super_call; rewrite H; cbn [bind]; rewrite A; cbn [bind negb convert]; rewrite ?Em; auto.
  destruct (hd_error args) as [[x|? ?|?|?]|]; reflexivity.
Qed.

Lemma default_calls F args kw e : F (map raw_of args) (on_values raw_of kw) = Err e -> default_valid F args kw = Err e.
Proof. intros H. unfold default_valid, super_call. now rewrite H. Qed.

Lemma default_only F F' args kw : F (map raw_of args) (on_values raw_of kw) = F' (map raw_of args) (on_values raw_of kw) ->
  default_valid F args kw = default_valid F' args kw.
Proof. intros H. unfold default_valid, super_call. now rewrite H. Qed.

(* ---------- recoupling rule ---------- *)

Lemma recouple_result F args kw o : no_chunks args kw -> recouple F args kw = Ok o ->
  exists y, o = DStream y /\ forall x, In (AStream x) (args ++ map snd kw) -> smeta y = smeta x /\ (names x <> [] -> names y = names x).
Proof.
  intros HC E. unfold recouple in E.
  destruct (check_metas _ (no_chunks_streams _ _ HC)) as [A B].
  destruct (all_eq _ _) as [b|e] eqn:Ea; [|discriminate]. cbn [bind] in E.
  destruct (b && _) eqn:Eb; [|discriminate]. cbn [negb] in E. apply andb_true_iff in Eb as [-> En].
  destruct (decouple_call F args kw) as [r|e]; [|discriminate]. cbn [bind] in E.
  destruct (top_streams args kw) as [|x0 ss] eqn:Es; [destruct r; discriminate|].
  assert (HM : forall x, In x (x0 :: ss) -> smeta x = smeta x0 /\ names x = names x0).
  { intros x Hx. split.
    - destruct (meta_dec (smeta x) (smeta x0)) as [|Hne]; auto. exfalso.
      assert (HH : ~ (forall x y, In x (x0 :: ss) -> In y (x0 :: ss) -> smeta x = smeta y)).
      { intros G. apply Hne. apply G; auto. now left. }
      specialize (B HH). discriminate B.
    - cbn [map hd tl] in En. destruct Hx as [<-|Hx]; auto. rewrite forallb_forall in En.
      specialize (En (names x) (in_map _ _ _ Hx)). now apply dname_list_eqb in En. }
  assert (G : exists t nn, o = DStream (mkSt t nn (smeta x0)) /\ rename (ndim t) (names x0) = Ok nn).
  { destruct r as [t n|t n|k|l]; try discriminate;
      (destruct (rename (ndim t) (names x0)) as [nn|e] eqn:Er; [|discriminate]; cbn [bind] in E; exists t, nn; split; [congruence|auto]). }
  destruct G as (t & nn & -> & Er). eexists. split; [reflexivity|]. intros x Hx. apply top_streams_In in Hx. rewrite Es in Hx.
  destruct (HM x Hx) as [E1 E2]. cbn [smeta names]. split; auto. intros Hne. rewrite E2 in *.
  unfold rename in Er. destruct (names x0); [contradiction|]. unfold refine_names in Er. destruct (_ && _); congruence.
Qed.

Lemma recouple_accepts F args kw x0 t n : no_chunks args kw -> In (AStream x0) (args ++ map snd kw) ->
  (forall x, In (AStream x) (args ++ map snd kw) -> smeta x = smeta x0 /\ names x = names x0) ->
  existsb nested_stream (args ++ map snd kw) = false ->
  F (map decoupled args) (on_values decoupled kw) = Ok (RTen t n) ->
  length (names x0) = length (shp t) -> names_distinct (names x0) ->
  recouple F args kw = Ok (DStream (mkSt t (names x0) (smeta x0))).
Proof.
  intros HC H0 HS HN HF HL HD. unfold recouple. destruct (check_metas _ (no_chunks_streams _ _ HC)) as [A _].
  rewrite A.
  2:{ intros x y Hx Hy. rewrite top_streams_In in Hx, Hy. rewrite (proj1 (HS x Hx)), (proj1 (HS y Hy)). reflexivity. }
  cbn [bind].
  assert (EN : forallb (fun n => list_eqb dname_eqb n (hd [] (map names (top_streams args kw)))) (tl (map names (top_streams args kw))) = true).
  { destruct (top_streams args kw) as [|x ss] eqn:E; [reflexivity|]. cbn [map hd tl]. apply forallb_forall.
    intros q Hq. apply in_map_iff in Hq as (z & <- & Hz). apply dname_list_eqb.
    assert (Hx' : In (AStream x) (args ++ map snd kw)) by (apply top_streams_In; rewrite E; now left).
    assert (Hz' : In (AStream z) (args ++ map snd kw)) by (apply top_streams_In; rewrite E; now right).
    rewrite (proj2 (HS x Hx')), (proj2 (HS z Hz')). reflexivity. }
  rewrite EN. cbn [andb negb]. unfold decouple_call, top. rewrite HN, HF. cbn [bind].
  destruct (top_streams args kw) as [|x ss] eqn:E; [apply top_streams_In in H0; rewrite E in H0; destruct H0|].
  assert (Hx' : In (AStream x) (args ++ map snd kw)) by (apply top_streams_In; rewrite E; now left).
  destruct (HS x Hx') as [E1 E2]. rewrite E1, E2. unfold ndim. rewrite (rename_ok (length (shp t)) (names x0)); auto.
Qed.

(** The function is called with all arguments: its error is reported, and only its value at these arguments matters. *)
Lemma recouple_calls F args kw e : no_chunks args kw ->
  (forall x y, In (AStream x) (args ++ map snd kw) -> In (AStream y) (args ++ map snd kw) -> smeta x = smeta y /\ names x = names y) ->
  existsb nested_stream (args ++ map snd kw) = false ->
  F (map decoupled args) (on_values decoupled kw) = Err e -> recouple F args kw = Err e.
Proof.
  intros HC HS HN HF. unfold recouple. destruct (check_metas _ (no_chunks_streams _ _ HC)) as [A _].
  rewrite A by (intros x y Hx Hy; rewrite top_streams_In in Hx, Hy; apply HS; auto).
  cbn [bind].
  assert (EN : forallb (fun n => list_eqb dname_eqb n (hd [] (map names (top_streams args kw)))) (tl (map names (top_streams args kw))) = true).
  { destruct (top_streams args kw) as [|x ss] eqn:E; [reflexivity|]. cbn [map hd tl]. apply forallb_forall.
    intros q Hq. apply in_map_iff in Hq as (z & <- & Hz). apply dname_list_eqb.
    apply HS; apply top_streams_In; rewrite E; [now right|now left]. }
  rewrite EN. cbn [andb negb]. unfold decouple_call, top. now rewrite HN, HF.
Qed.

Lemma recouple_only F F' args kw :
  F (map decoupled args) (on_values decoupled kw) = F' (map decoupled args) (on_values decoupled kw) ->
  recouple F args kw = recouple F' args kw.
Proof. intros H. unfold recouple, decouple_call. now rewrite H. Qed.

(* ---------- whole dispatch ---------- *)

Lemma dispatch_refuses custom f F args kw x y : handler_of f = HDefault \/ handler_of f = HRecouple -> no_chunks args kw ->
  In (AStream x) (args ++ map snd kw) -> In (AStream y) (args ++ map snd kw) -> smeta x <> smeta y ->
  exists e, torch_function custom f F args kw = Err e.
Proof.
  intros HH HC Hx Hy Hne. unfold torch_function. destruct HH as [HH|HH]; rewrite HH.
  - destruct (default_valid F args kw) as [o|e] eqn:E; [|eauto]. exfalso. apply Hne. eapply default_common; eauto.
  - destruct (recouple F args kw) as [o|e] eqn:E; [|eauto]. exfalso. apply Hne.
    destruct (recouple_result F args kw o HC E) as (z & _ & H). rewrite <- (proj1 (H x Hx)), <- (proj1 (H y Hy)). reflexivity.
Qed.

Lemma dispatch_result custom f F args kw y : handler_of f = HDefault \/ handler_of f = HRecouple -> no_chunks args kw ->
  torch_function custom f F args kw = Ok (DStream y) -> forall x, In (AStream x) (args ++ map snd kw) -> smeta y = smeta x.
Proof.
  intros HH HC E x Hx. unfold torch_function in E. destruct HH as [H|H]; rewrite H in E.
  - eapply default_result; eauto.
  - destruct (recouple_result F args kw _ HC E) as (z & Ez & HR). injection Ez as <-. apply HR; auto.
Qed.

Lemma dispatch_names_refused custom f F args kw x y : handler_of f = HRecouple -> no_chunks args kw ->
  In (AStream x) (args ++ map snd kw) -> In (AStream y) (args ++ map snd kw) -> names x <> names y ->
  exists e, torch_function custom f F args kw = Err e.
Proof.
  intros H HC Hx Hy Hne. unfold torch_function. rewrite H. unfold recouple.
  destruct (all_eq _ _) as [b|e]; [|cbn; eauto]. cbn [bind].
  replace (forallb (fun n => list_eqb dname_eqb n (hd [] (map names (top_streams args kw)))) (tl (map names (top_streams args kw)))) with false.
  { rewrite andb_false_r. cbn. eauto. }
  symmetry. apply not_true_iff_false. intros HF. rewrite forallb_forall in HF.
  apply top_streams_In in Hx, Hy. destruct (top_streams args kw) as [|x0 ss]; [destruct Hx|]. cbn [map hd tl] in HF.
  assert (G : forall z, In z (x0 :: ss) -> names z = names x0).
  { intros z [<-|Hz]; auto. apply dname_list_eqb. apply HF. now apply in_map. }
  apply Hne. rewrite (G x Hx), (G y Hy). reflexivity.
Qed.

Lemma valid_ignores_keywords custom f F args kw : handler_of f = HValid ->
  torch_function custom f F args kw = torch_function custom f F args [].
Proof. intros H. unfold torch_function. rewrite H. reflexivity. Qed.

Lemma nested_fails custom f F (l : list (@arg V)) kw t n : handler_of f = HDefault ->
  (forall a, In a (map snd kw) -> match a with AStream _ => False | _ => True end) ->
  F [RL (map raw_of l)] (on_values raw_of kw) = Ok (RTen t n) ->
  torch_function custom f F [AList l] kw = Err IndexError.
Proof.
  intros H HK HF. unfold torch_function. rewrite H. unfold default_valid, super_call. cbn [map raw_of hd_error]. rewrite HF. cbn [bind convert].
  assert (E : top_streams [AList l] kw = []).
  { destruct (top_streams [AList l] kw) as [|x ss] eqn:E; auto. exfalso.
    assert (Hx : In x (top_streams [AList l] kw)) by (rewrite E; now left). apply top_streams_In in Hx.
    destruct Hx as [Hx|Hx]; [discriminate|]. apply (HK _ Hx). }
  rewrite E. reflexivity.
Qed.

Lemma inplace_keeps_first custom f F x args kw : handler_of f = HInplace ->
  forall o, torch_function custom f F (AStream x :: args) kw = Ok o -> exists y, o = DStream y /\ smeta y = smeta x /\ names y = names x.
Proof.
  intros H o. unfold torch_function. rewrite H. unfold inplace_recouple.
  destruct (decouple_call F (AStream x :: args) kw) as [r|e]; [|discriminate]. cbn [bind].
  destruct r; intros E; injection E as <-; eauto.
Qed.

End D.

(** The classes of the registered functions. *)
Lemma class_of_default f : In f DEFAULT_VALID -> handler_of f = HDefault \/
  (handler_of f = HRecouple /\ In f ["transpose"; "sigmoid"; "Tensor.sigmoid"]%string).
Proof.
  intros H.
  assert (G : forallb (fun g => match handler_of g with HDefault => true
     | HRecouple => mem g ["transpose"; "sigmoid"; "Tensor.sigmoid"]%string | _ => false end) DEFAULT_VALID = true) by (vm_compute; reflexivity).
  rewrite forallb_forall in G. specialize (G f H). destruct (handler_of f); try discriminate; auto.
  right. split; auto. now apply mem_In.
Qed.

Lemma class_of_recouple f : In f RECOUPLE -> handler_of f = HRecouple.
Proof.
  intros H. assert (G : forallb (fun g => match handler_of g with HRecouple => true | _ => false end) RECOUPLE = true) by (vm_compute; reflexivity).
  rewrite forallb_forall in G. specialize (G f H). destruct (handler_of f); congruence.
Qed.

Lemma class_of_listed f :
  (In f VALID -> handler_of f = HValid) /\ (In f CUSTOMIZED -> handler_of f = HCustom) /\
  (In f DECOUPLE -> f <> "fake_quantize_per_tensor_affine"%string -> handler_of f = HDecouple) /\
  (In f INPLACE_RECOUPLE -> handler_of f = HInplace).
Proof.
  split; [|split; [|split]]; intros H.
  - assert (G : forallb (fun g => match handler_of g with HValid => true | _ => false end) VALID = true) by (vm_compute; reflexivity).
    rewrite forallb_forall in G. specialize (G f H). destruct (handler_of f); congruence.
  - assert (G : forallb (fun g => match handler_of g with HCustom => true | _ => false end) CUSTOMIZED = true) by (vm_compute; reflexivity).
    rewrite forallb_forall in G. specialize (G f H). destruct (handler_of f); congruence.
  - intros N. assert (G : forallb (fun g => match handler_of g with HDecouple => true | _ => mem g ["fake_quantize_per_tensor_affine"]%string end) DECOUPLE = true)
      by (vm_compute; reflexivity).
    rewrite forallb_forall in G. specialize (G f H). destruct (handler_of f); auto; apply mem_In in G; destruct G as [G|[]]; congruence.
  - assert (G : forallb (fun g => match handler_of g with HInplace => true | _ => false end) INPLACE_RECOUPLE = true) by (vm_compute; reflexivity).
    rewrite forallb_forall in G. specialize (G f H). destruct (handler_of f); congruence.
Qed.

Lemma class_of_unlisted f : ~ In f (VALID ++ CUSTOMIZED ++ DECOUPLE ++ RECOUPLE ++ INPLACE_RECOUPLE) -> handler_of f = HDefault.
Proof.
  intros H. unfold handler_of.
  assert (G : forall l, (In f l -> In f (VALID ++ CUSTOMIZED ++ DECOUPLE ++ RECOUPLE ++ INPLACE_RECOUPLE)) -> mem f l = false).
  { intros l Hl. apply not_true_iff_false. intros E. apply mem_In in E. auto. }
  rewrite !G; auto; intros; rewrite !in_app_iff; auto 10.
Qed.

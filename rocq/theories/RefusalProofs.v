(** Proofs: calls that are refused and exact effects of some that are not: names under cat, streams inside lists, index
    tensors on their own, several Ellipsis, arguments of convolutions. *)

From Coq Require Import String List ZArith Bool Lia.
From Coq Require Import ZifyBool.
From Verif Require Import Py Meta MetaSpec MetaProofs Named NamedSpec NamedProofs Gather FullIndex FullIndexSpec FullIndexProofs FullRankProofs
  FullMaskProofs FullMaskGetProofs Dispatch DispatchProofs.
Import ListNotations.
Open Scope Z_scope.

(** An integer tensor on its own. *)
Lemma ints_single {V} (x : @stensor V) m : length (names x) = length (shp (tn x)) -> (1 <= length (shp (tn x)))%nat ->
  x_getitem x (XSingle (XInts m)) = x_getitem x (XTuple [XInts m]).
Proof.
  intros HR Hx. unfold x_getitem.
  change (x_torch_getitem (tn x) (XTuple [XInts m])) with (x_torch_getitem (tn x) (XSingle (XInts m))).
  destruct (x_torch_getitem (tn x) (XSingle (XInts m))) as [t'|] eqn:A; [|reflexivity]. cbn [bind].
  destruct (names x) as [|n0 nms] eqn:EN; [cbn in HR; lia|].
  cbn [x_determine]. rewrite x_replace_none by reflexivity. cbn [bind x_describe_single x_describe_all x_describe name_at nth_error rev app].
  cbn [x_indexed filter x_none negb length extra_dims].
  replace (S (length nms) - Z.to_nat (Z.of_nat (S (length nms)) - Z.of_nat 1 - 0))%nat with 1%nat by lia. cbn [skipn].
  unfold name_at. cbn [nth_error bind]. rewrite app_nil_r, <- app_assoc. cbn [app rev bind skipn].
  replace (S (length nms) - Z.to_nat (Z.of_nat (S (length nms)) - Z.of_nat 1 - 0))%nat with 1%nat by lia. cbn [skipn].
  destruct (names_index (Some BATCH) (n0 :: nms)) as [bd|]; [|reflexivity].
  destruct (names_index (Some LENGTH) (n0 :: nms)) as [ld|]; [|reflexivity]. cbn [bind List.concat app].
  cbn [mask_locations mask_indices].
  destruct bd as [|bd], ld as [|ld]; cbn [nat_mem existsb Nat.eqb orb negb nth]; reflexivity.
Qed.

(** The names of a concatenation. *)
Lemma unify_left a : forall b r, unify_names a b = Ok r -> forall d n,
  (nth_error a d = Some (Some n) \/ nth_error b d = Some (Some n)) <-> nth_error r d = Some (Some n).
Proof.
  induction a as [|x a IH]; intros [|y b] r E d n; try discriminate.
  - injection E as <-. destruct d; cbn; intuition discriminate.
  - cbn [unify_names] in E.
    destruct (match x, y with None, _ => Ok y | _, None => Ok x | Some p, Some q => if String.eqb p q then Ok x else Err RuntimeError end) as [z|] eqn:EZ;
      [|discriminate]. cbn [bind] in E. destruct (unify_names a b) as [r'|] eqn:ER; [|discriminate]. injection E as <-.
    destruct d as [|d]; cbn [nth_error]; [|exact (IH b r' ER d n)].
    destruct x as [p|], y as [q|]; try (destruct (String.eqb_spec p q) as [->|]; [|discriminate]); injection EZ as <-; intuition congruence.
Qed.

Lemma fold_unify {V} (l : list (@operand V)) : forall a r,
  fold_left (fun acc q => do a <- acc; unify_names a (op_names q)) l (Ok a) = Ok r -> forall d n,
  (nth_error a d = Some (Some n) \/ exists o, In o l /\ nth_error (op_names o) d = Some (Some n)) <-> nth_error r d = Some (Some n).
Proof.
  assert (F : forall l e, fold_left (fun acc (q : @operand V) => do a <- acc; unify_names a (op_names q)) l (Err e) = Err e).
  { clear. induction l; intros e; [reflexivity|]. cbn [fold_left bind]. auto. }
  induction l as [|o l IH]; intros a r E d n; cbn [fold_left] in E.
  - injection E as <-. split; [intros [H|(o & [] & _)]; exact H|auto].
  - cbn [bind] in E. destruct (unify_names a (op_names o)) as [a'|e] eqn:EU; [|rewrite F in E; discriminate].
    rewrite <- (IH a' r E d n), <- (unify_left _ _ _ EU d n). split.
    + intros [H|(q & [->|Hq] & K)]; eauto.
    + intros [[H|H]|(q & Hq & K)]; eauto; right; [exists o|exists q]; cbn; auto.
Qed.

Lemma torch_cat_names {V} (l : list (@operand V)) dim t nn : torch_cat l dim = Ok (t, nn) -> forall d n,
  (exists o, In o l /\ nth_error (op_names o) d = Some (Some n)) <-> nth_error nn d = Some (Some n).
Proof.
  intros E d n. unfold torch_cat in E. destruct l as [|o l]; [discriminate|]. cbn [map] in E.
  destruct (norm_dim (ndim (op_tensor o)) dim) as [k|]; [|discriminate]. cbn [bind] in E.
  destruct (forallb _ _); [|discriminate]. cbn [negb tl hd] in E.
  destruct (fold_left _ l (Ok (op_names o))) as [nn'|] eqn:EF; [|discriminate]. cbn [bind] in E.
  assert (nn' = nn) by congruence. subst nn'.
  rewrite <- (fold_unify l _ _ EF d n). split.
  - intros (q & [->|Hq] & K); eauto.
  - intros [H|(q & Hq & K)]; [exists o|exists q]; cbn; auto.
Qed.

Lemma cat_names {V} (o0 o1 : @operand V) os dim y : cat (o0 :: o1 :: os) dim = Ok (OStream y) -> forall d n,
  (exists o, In o (o0 :: o1 :: os) /\ nth_error (op_names o) d = Some (Some n)) <-> nth_error (names y) d = Some (Some n).
Proof.
  set (l := o0 :: o1 :: os). intros E d n.
  assert (G : exists t nn, torch_cat l dim = Ok (t, nn) /\ names y = nn).
  { unfold cat in E. unfold l in E. fold l in E.
    destruct (mapM _ (streams_of l)) as [ns|]; [|discriminate]. cbn [bind] in E.
    destruct (existsb (fun n => dname_eqb n (Some BATCH)) ns).
    - destruct (forallb is_stream l); [|discriminate]. destruct (torch_cat l dim) as [(t, nn)|]; [|discriminate]. cbn [bind] in E.
      destruct (cat_batch _); [|discriminate]. injection E as <-. eauto.
    - destruct (existsb (fun n => dname_eqb n (Some LENGTH)) ns).
      + destruct (cat_padding_check _); [|discriminate]. cbn [bind] in E. destruct (torch_cat l dim) as [(t, nn)|]; [|discriminate]. cbn [bind] in E.
        destruct (cat_length _); [|discriminate]. cbn [bind] in E. destruct (mapM _ _); [|discriminate]. injection E as <-. eauto.
      + unfold l in E. fold l in E.
        destruct (cat_same_meta (op_meta o0) (removelast l)) as [u|]; [|discriminate]. cbn [bind] in E.
        destruct (op_meta o0) as [m|]; [|discriminate]. cbn [bind] in E.
        destruct (torch_cat l dim) as [(t, nn)|]; [|discriminate]. cbn [bind] in E. injection E as <-. eauto. }
  destruct G as (t & nn & E1 & ->). exact (torch_cat_names l dim t nn E1 d n).
Qed.

(** Streams inside lists. *)
Lemma nested_refused {V} custom f (impl : @raw V) args kw items (x : @stensor V) :
  In (AList items) (args ++ map snd kw) -> inside x (AList items) ->
  (handler_of f = HDecouple \/ handler_of f = HInplace /\ args <> [] -> torch_function custom f impl args kw = Err RuntimeError) /\
  (handler_of f = HRecouple -> exists e, torch_function custom f impl args kw = Err e).
Proof.
  intros Hi Hx.
  assert (N : existsb nested_stream (top args kw) = true).
  { destruct (existsb nested_stream (top args kw)) eqn:E; [reflexivity|]. apply no_nested in E. destruct (E _ _ Hi Hx). }
  unfold torch_function. split.
  - intros [-> | [-> Ha]]; [unfold decouple_call; rewrite N; reflexivity|].
    destruct args as [|a args]; [congruence|]. unfold inplace_recouple, decouple_call. rewrite N. reflexivity.
  - intros ->. unfold recouple, decouple_call. rewrite N. destruct (all_eq _ _) as [eq|e]; [|eexists; reflexivity]. cbn [bind].
    destruct (negb _); eexists; reflexivity.
Qed.

(** Two Ellipsis apart. *)
Lemma ell_positions_app a b : ell_positions (a ++ b) = ell_positions a ++ map (Nat.add (length a)) (ell_positions b).
Proof.
  unfold ell_positions.
  assert (G : forall l k j, map fst (filter (fun p : nat * xitem => x_ell (snd p)) (combine (seq (k + j) (length l)) l)) =
                          map (Nat.add k) (map fst (filter (fun p : nat * xitem => x_ell (snd p)) (combine (seq j (length l)) l)))).
  { induction l as [|i l IH]; intros k j; [reflexivity|]. cbn [length seq combine filter snd].
    replace (S (k + j)) with (k + S j)%nat by lia. destruct (x_ell i); cbn [map fst]; rewrite IH; reflexivity. }
  rewrite app_length, seq_app.
  assert (H : forall (s1 s2 : list nat) (u v : list xitem), length s1 = length u -> combine (s1 ++ s2) (u ++ v) = combine s1 u ++ combine s2 v).
  { induction s1 as [|x s1 IH]; intros s2 [|y u] v L; try discriminate; [reflexivity|]. cbn. f_equal. apply IH. now injection L. }
  rewrite H by apply seq_length. rewrite filter_app, map_app. f_equal. cbn [Nat.add].
  rewrite <- (G b (length a) O). now rewrite Nat.add_0_r.
Qed.

Lemma apart_replace l1 l2 l3 nd : filter x_ell l1 = [] -> filter x_ell l2 = [] -> filter x_ell l3 = [] -> l2 <> [] ->
  x_replace (l1 ++ Plain IEll :: l2 ++ Plain IEll :: l3) nd =
  if Nat.eqb (x_indexed (l1 ++ l2 ++ l3) + 2) nd then Ok (l1 ++ x_slice :: l2 ++ x_slice :: l3) else Err IndexError.
Proof.
  intros H1 H2 H3 HN. set (l := l1 ++ Plain IEll :: l2 ++ Plain IEll :: l3).
  assert (E : ell_positions l = [length l1; (length l1 + S (length l2))%nat]).
  { unfold l. change (Plain IEll :: l2 ++ Plain IEll :: l3) with ([Plain IEll] ++ l2 ++ [Plain IEll] ++ l3).
    rewrite !ell_positions_app, (ell_positions_nil l1 H1), (ell_positions_nil l2 H2), (ell_positions_nil l3 H3). cbn [ell_positions seq combine filter x_ell snd map fst app length Nat.add].
    rewrite !Nat.add_0_r. reflexivity. }
  assert (L2 : (1 <= length l2)%nat) by (destruct l2; [congruence|cbn; lia]).
  unfold x_replace. rewrite E. cbn [length Nat.ltb Nat.leb collapse Nat.sub seq fold_right nth].
  unfold collapse. cbn [length Nat.sub seq fold_right nth].
  replace (Nat.eqb (S (length l1)) (length l1 + S (length l2))) with false by lia. rewrite E. cbn [length Nat.ltb Nat.leb firstn].
  assert (C : x_indexed l = (x_indexed (l1 ++ l2 ++ l3) + 2)%nat).
  { unfold l, x_indexed. rewrite !filter_app. cbn [filter x_none negb]. rewrite !filter_app. cbn [filter x_none negb]. rewrite !app_length. cbn [length]. rewrite !app_length. cbn [length]. lia. }
  rewrite C. destruct (Nat.eqb _ nd); [|reflexivity].
  cbn [set_slices]. unfold set_slice, l.
  assert (S : forall a (i : xitem) b, list_set (a ++ i :: b) (length a) x_slice = a ++ x_slice :: b).
  { clear. induction a as [|y a IH]; intros i b; [reflexivity|]. cbn [length app]. cbn [list_set]. now rewrite IH. }
  replace (Nat.ltb (length l1) (length (l1 ++ Plain IEll :: l2 ++ Plain IEll :: l3))) with true by (rewrite app_length; cbn [length]; lia).
  cbn [bind]. rewrite S.
  replace (l1 ++ x_slice :: l2 ++ Plain IEll :: l3) with ((l1 ++ x_slice :: l2) ++ Plain IEll :: l3) by (rewrite <- app_assoc; reflexivity).
  replace (length l1 + Datatypes.S (length l2))%nat with (length (l1 ++ x_slice :: l2)) by (rewrite app_length; reflexivity).
  replace (Nat.ltb (length (l1 ++ x_slice :: l2)) (length ((l1 ++ x_slice :: l2) ++ Plain IEll :: l3))) with true by (rewrite (app_length (l1 ++ x_slice :: l2)); cbn [length]; lia).
  cbn [bind]. rewrite S, <- app_assoc. reflexivity.
Qed.

Lemma dots_apart_count {V} (x : @stensor V) l1 l2 l3 y : length (names x) = length (shp (tn x)) ->
  filter x_ell l1 = [] -> filter x_ell l2 = [] -> filter x_ell l3 = [] -> l2 <> [] ->
  x_getitem x (XTuple (l1 ++ Plain IEll :: l2 ++ Plain IEll :: l3)) = Ok y ->
  (length (filter (fun i => negb (x_none i)) (l1 ++ l2 ++ l3)) + 2 = length (shp (tn x)))%nat.
Proof.
  intros HR H1 H2 H3 HN E. unfold x_getitem in E. destruct (x_torch_getitem _ _) as [t'|]; [|discriminate]. cbn [bind x_determine] in E.
  rewrite (apart_replace l1 l2 l3 _ H1 H2 H3 HN) in E. unfold x_indexed in E.
  destruct (Nat.eqb_spec (length (filter (fun i => negb (x_none i)) (l1 ++ l2 ++ l3)) + 2) (length (names x))); [lia|discriminate].
Qed.

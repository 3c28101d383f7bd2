(** Proofs about torch.cat of named stream tensors. *)

From Coq Require Import String List ZArith Bool Lia.
From Coq Require Import ZifyBool.
From Verif Require Import Py Meta MetaSpec MetaProofs MetaLenProofs MetaSplitProofs MetaBatchProofs Named NamedSpec
  NamedProofs NamedSelProofs NamedIndexProofs NamedMetaProofs NamedGetProofs NamedOpsProofs NamedShapeProofs NamedSplitProofs.
Import ListNotations.
Open Scope Z_scope.

Lemma list_eqb_refl {A} (eqb : A -> A -> bool) (H : forall a, eqb a a = true) l : list_eqb eqb l l = true.
Proof. induction l; cbn; auto. now rewrite H, IHl. Qed.

Lemma unify_same l : unify_names l l = Ok l.
Proof.
  induction l as [|[n|] l IH]; cbn; auto.
  - rewrite String.eqb_refl. cbn. now rewrite IH.
  - now rewrite IH.
Qed.

Lemma unify_none_r l : unify_names l (repeat None (length l)) = Ok l.
Proof. induction l as [|[n|] l IH]; cbn; auto; now rewrite IH. Qed.

Lemma unify_none_l l : unify_names (repeat None (length l)) l = Ok l.
Proof. induction l as [|n l IH]; cbn; auto; now rewrite IH. Qed.

Section Cat.
Context {V : Type}.
Implicit Types x y : @stensor V.

Lemma same_frame_size d (t0 t : @tensor V) : same_frame d t0 t -> 0 <= size t0 d /\ 0 <= size t d /\ ndim t = ndim t0 /\ (d < ndim t0)%nat.
Proof.
  intros (pre & n0 & n & post & E0 & E & Hd & H0 & H). unfold size, ndim. rewrite E0, E, <- Hd, !nth_app_here, !app_length. cbn. lia.
Qed.

Lemma same_frame_but d (t0 t : @tensor V) : same_frame d t0 t -> same_but d (shp t0) (shp t) = true.
Proof.
  intros (pre & n0 & n & post & E0 & E & Hd & _). unfold same_but. rewrite E0, E, <- Hd, !remove_nth_app, !app_length. cbn [length].
  rewrite Nat.eqb_refl. apply list_eqb_refl. apply Z.eqb_refl.
Qed.

Lemma cat_at_ok d (ts : list (@tensor V)) : forall t0, Forall (fun t => 0 <= size t d) (t0 :: ts) ->
  forall j t ia i ic, nth_error (t0 :: ts) j = Some t -> length ia = d -> 0 <= i < size t d ->
  cat_at d t0 ts (ia ++ (zsum (map (fun u => size u d) (firstn j (t0 :: ts))) + i) :: ic) = at_ t (ia ++ i :: ic).
Proof.
  induction ts as [|t1 ts IH]; intros t0 HF j t ia i ic Hj Ha Hi.
  - destruct j as [|[|j]]; try discriminate. cbn in Hj. injection Hj as <-. reflexivity.
  - cbn [cat_at]. inversion HF as [|? ? H0 HF']; subst.
    assert (En : forall v, nth (length ia) (ia ++ v :: ic) 0 = v) by (intros; apply nth_app_here).
    rewrite En. destruct j as [|j].
    + cbn in Hj. injection Hj as <-. cbn [firstn map zsum fold_right].
      replace (0 + i <? size t0 (length ia)) with true by lia. reflexivity.
    + cbn [nth_error] in Hj.
      assert (ES : zsum (map (fun u => size u (length ia)) (firstn (S j) (t0 :: t1 :: ts)))
                 = size t0 (length ia) + zsum (map (fun u => size u (length ia)) (firstn j (t1 :: ts)))) by reflexivity.
      rewrite ES. set (o := zsum (map (fun u => size u (length ia)) (firstn j (t1 :: ts)))).
      assert (Ho : 0 <= o).
      { unfold o. clear -HF'. revert j. induction HF' as [|u l Hu HF IH]; intros [|j]; cbn; try lia.
        specialize (IH j). unfold zsum in IH. lia. }
      replace (size t0 (length ia) + o + i <? size t0 (length ia)) with false by lia.
      rewrite list_set_app. replace (size t0 (length ia) + o + i - size t0 (length ia)) with (o + i) by lia.
      unfold o. now apply IH.
Qed.

Lemma torch_cat_ok (o : @operand V) l dim d nms :
  let t0 := op_tensor o in let ts := map op_tensor l in
  denotes (ndim t0) dim d -> 0 <= size t0 d -> Forall (same_frame d t0) ts ->
  fold_left (fun acc q => do a <- acc; unify_names a (op_names q)) l (Ok (op_names o)) = Ok nms ->
  exists t', torch_cat (o :: l) dim = Ok (t', nms) /\ concatenated d t0 ts t'.
Proof.
  intros t0 ts HD H0 HF HU. unfold torch_cat. cbn [map]. fold t0. fold ts.
  rewrite (proj2 (norm_dim_denotes _ _ _) HD). cbn [bind].
  replace (forallb (fun t => same_but d (shp t0) (shp t)) ts) with true.
  2:{ symmetry. apply forallb_forall. intros t Ht. apply same_frame_but. rewrite Forall_forall in HF. auto. }
  cbn [negb tl hd]. rewrite HU. cbn [bind]. eexists. split; [reflexivity|].
  destruct HD as [Hd _]. unfold ndim in Hd. split.
  - cbn [shp]. destruct (nth_error (shp t0) d) as [n|] eqn:En; [|apply nth_error_None in En; lia].
    apply nth_error_split in En as (pre & post & E & HL). rewrite E, <- HL, list_set_app.
    rewrite firstn_app, firstn_all, Nat.sub_diag. cbn [firstn]. rewrite app_nil_r.
    rewrite skipn_app. rewrite skipn_all2 by lia. replace (S (length pre) - length pre)%nat with 1%nat by lia. reflexivity.
  - intros j t ia i ic Hj Ha Hi. cbn [at_]. apply (cat_at_ok d ts t0); auto.
    constructor; auto. rewrite Forall_forall in *. intros t1 Ht1. apply (same_frame_size d t0). auto.
Qed.

Lemma fold_unify_streams xs : forall nms, Forall (fun x => names x = nms) xs ->
  fold_left (fun acc q => do a <- acc; unify_names a (op_names q)) (map OStream xs) (Ok nms) = Ok nms.
Proof.
  induction xs as [|x xs IH]; intros nms H; [reflexivity|]. inversion H; subst.
  cbn [map fold_left bind op_names]. rewrite unify_same. now apply IH.
Qed.

Lemma streams_of_map xs : streams_of (map (@OStream V) xs) = xs.
Proof. induction xs; cbn; auto. now f_equal. Qed.

Lemma plains_of_map xs : plains_of (map (@OStream V) xs) = [].
Proof. induction xs; cbn; auto. Qed.

Lemma map_op_streams xs : map op_tensor (map (@OStream V) xs) = map tn xs.
Proof. rewrite map_map. reflexivity. Qed.

Lemma forallb_streams xs : forallb is_stream (map (@OStream V) xs) = true.
Proof. induction xs; auto. Qed.

Lemma names_dim x dim d nm : length (names x) = ndim (tn x) -> denotes (ndim (tn x)) dim d -> nth_error (names x) d = Some nm ->
  names_at_dim x dim = Ok nm.
Proof.
  intros HR HD E. unfold names_at_dim. rewrite (getitem_denotes (names x) None dim d); [|now rewrite HR].
  f_equal. now apply nth_error_nth.
Qed.

Lemma alike_names_at d x0 xs dim nm : alike d x0 xs -> denotes (ndim (tn x0)) dim d -> nth_error (names x0) d = Some nm ->
  mapM (fun x => names_at_dim x dim) (x0 :: xs) = Ok (map (fun _ => nm) (x0 :: xs)).
Proof.
  intros (HR & H0 & HF) HD E. unfold mapM. cbn [map seqM]. rewrite (names_dim x0 dim d nm HR HD E). cbn [bind].
  replace (seqM (map (fun x => names_at_dim x dim) xs)) with (Ok (map (fun _ : @stensor V => nm) xs)); [reflexivity|].
  induction HF as [|x xs [Hn Hs] HF IH]; [reflexivity|]. cbn [map seqM].
  destruct (same_frame_size _ _ _ Hs) as (_ & _ & Hnd & _).
  rewrite (names_dim x dim d nm); [|now rewrite Hn, HR, Hnd|now rewrite Hnd|now rewrite Hn]. cbn [bind].
  now rewrite <- IH.
Qed.

Lemma cat_streams_torch d x0 xs dim : alike d x0 xs -> denotes (ndim (tn x0)) dim d ->
  exists t', torch_cat (map OStream (x0 :: xs)) dim = Ok (t', names x0) /\ concatenated d (tn x0) (map tn xs) t'.
Proof.
  intros (HR & H0 & HF) HD. cbn [map].
  destruct (torch_cat_ok (OStream x0) (map OStream xs) dim d (names x0)) as (t' & E & HC); auto.
  - rewrite map_op_streams. apply Forall_map. eapply Forall_impl; [|exact HF]. cbn. tauto.
  - apply fold_unify_streams. eapply Forall_impl; [|exact HF]. cbn. tauto.
  - rewrite map_op_streams in HC. eauto.
Qed.

(* ---------- batch ---------- *)

Lemma cat_two_or_more (o1 o2 : @operand V) l dim :
  cat (o1 :: o2 :: l) dim =
      (do ns <- mapM (fun x => names_at_dim x dim) (streams_of (o1 :: o2 :: l));
      if existsb (fun n => dname_eqb n (Some BATCH)) ns then
        if forallb is_stream (o1 :: o2 :: l) then
          do '(t, nn) <- torch_cat (o1 :: o2 :: l) dim;
          do m <- cat_batch (map smeta (streams_of (o1 :: o2 :: l)));
          Ok (OStream (mkSt t nn m))
        else Err ValueError
      else if existsb (fun n => dname_eqb n (Some LENGTH)) ns then
        do _ <- cat_padding_check (removelast (o1 :: o2 :: l));
        do '(t, nn) <- torch_cat (o1 :: o2 :: l) dim;
        do m <- cat_length (map smeta (streams_of (o1 :: o2 :: l)));
        do k <- mapM (fun t => do d <- norm_dim (ndim t) dim; Ok (size t d)) (plains_of (o1 :: o2 :: l));
        let s := zsum k in
        Ok (OStream (mkSt t nn (mkMeta (ids m) (sos m) (eos m) (map (fun n => n + s) (lens m)) (chs m))))
      else
        let m0 := op_meta o1 in
        do _ <- cat_same_meta m0 (removelast (o1 :: o2 :: l));
        do m <- m0;
        do '(t, nn) <- torch_cat (o1 :: o2 :: l) dim;
        Ok (OStream (mkSt t nn (clone m)))).
Proof. reflexivity. Qed.

Lemma cat_batch_streams x0 x1 xs dim bd (l : list (bool * list row)) :
  alike bd x0 (x1 :: xs) -> denotes (ndim (tn x0)) dim bd -> nth_error (names x0) bd = Some (Some "B"%string) ->
  map smeta (x0 :: x1 :: xs) = map (fun p => of_rows (fst p) (snd p)) l ->
  exists y, cat (map OStream (x0 :: x1 :: xs)) dim = Ok (OStream y) /\ names y = names x0 /\
    concatenated bd (tn x0) (map tn (x1 :: xs)) (tn y) /\
    smeta y = of_rows (forallb fst l) (List.concat (map snd l)).
Proof.
  intros HA HD HB HM. pose proof (alike_names_at _ _ _ _ _ HA HD HB) as EN.
  destruct (cat_streams_torch _ _ _ _ HA HD) as (t' & ET & HC).
  cbn [map]. rewrite cat_two_or_more.
  change (OStream x0 :: OStream x1 :: map OStream xs) with (map OStream (x0 :: x1 :: xs)).
  rewrite streams_of_map, EN, forallb_streams, ET, HM. cbn [map existsb bind]. unfold BATCH.
  rewrite (proj2 (dname_eqb_eq _ _) eq_refl). cbn [orb].
  rewrite cat_batch_rows by (intros ->; discriminate HM).
  cbn [bind]. eexists. split; [reflexivity|]. cbn. auto.
Qed.

Lemma cat_batch_mixed (l : list (@operand V)) dim ns : (2 <= length l)%nat ->
  mapM (fun x => names_at_dim x dim) (streams_of l) = Ok ns ->
  In (Some "B"%string) ns -> (exists t, In (OPlain t) l) -> cat l dim = Err ValueError.
Proof.
  intros HL EN HB (t & Ht). destruct l as [|o1 [|o2 l]]; cbn [length] in HL; try lia.
  rewrite cat_two_or_more, EN. cbn [bind].
  replace (existsb (fun n => dname_eqb n (Some BATCH)) ns) with true.
  2:{ symmetry. apply existsb_exists. exists (Some "B"%string). split; auto. }
  replace (forallb is_stream (o1 :: o2 :: l)) with false; [reflexivity|].
  symmetry. apply Bool.not_true_iff_false. intros H. rewrite forallb_forall in H. specialize (H _ Ht). discriminate.
Qed.

(* ---------- length ---------- *)

(** Operands along length: streams and plain tensors. *)
Lemma padding_check_ok (l : list (@operand V)) :
  (forall x, In (OStream x) l -> exists ld c rs T, nth_error (names x) ld = Some (Some "L"%string) /\
     names_distinct (names x) /\ nth_error (shp (tn x)) ld = Some T /\ smeta x = of_rows c rs /\ rs <> [] /\
     Forall (fun r => rlen r = T) rs) ->
  cat_padding_check l = Ok tt.
Proof.
  induction l as [|[x|t] l IH]; intros H; cbn [cat_padding_check]; [reflexivity| |].
  - destruct (H x (or_introl eq_refl)) as (ld & c & rs & T & H1 & H2 & H3 & H4 & H5 & H6).
    destruct (min_length_exists c rs H5) as (mn & En & (r & Hr & Er) & _).
    rewrite H4, En. cbn [bind]. unfold LENGTH. rewrite (names_index_ok _ _ _ H1 H2). cbn [bind].
    unfold size. rewrite (nth_error_nth _ _ _ H3). rewrite Forall_forall in H6. specialize (H6 r Hr).
    replace (mn <? T) with false by lia. apply IH. intros; apply H; now right.
  - apply IH. intros; apply H; now right.
Qed.

Lemma padding_check_bad (l : list (@operand V)) :
  (forall x, In (OStream x) l -> exists ld c rs T, nth_error (names x) ld = Some (Some "L"%string) /\
     names_distinct (names x) /\ nth_error (shp (tn x)) ld = Some T /\ smeta x = of_rows c rs /\ rs <> [] /\
     Forall (fun r => rlen r <= T) rs) ->
  (exists x ld c rs T r, In (OStream x) l /\ nth_error (names x) ld = Some (Some "L"%string) /\
     nth_error (shp (tn x)) ld = Some T /\ smeta x = of_rows c rs /\ In r rs /\ rlen r < T) ->
  cat_padding_check l = Err NotImplementedError.
Proof.
  induction l as [|[x|t] l IH]; intros H (x' & ld' & c' & rs' & T' & r' & I & N1 & N2 & N3 & N4 & N5); cbn [cat_padding_check]; [destruct I| |].
  - destruct (H x (or_introl eq_refl)) as (ld & c & rs & T & H1 & H2 & H3 & H4 & H5 & H6).
    destruct (min_length_exists c rs H5) as (mn & En & (r & Hr & Er) & Hmn).
    rewrite H4, En. cbn [bind]. unfold LENGTH. rewrite (names_index_ok _ _ _ H1 H2). cbn [bind].
    unfold size. rewrite (nth_error_nth _ _ _ H3).
    destruct (mn <? T) eqn:E; [reflexivity|]. apply IH; [intros; apply H; now right|].
    destruct I as [I|I].
    + injection I as <-. exfalso. assert (ld' = ld) by (eapply H2; eauto). subst ld'. assert (T' = T) by congruence. subst T'.
      assert (EL : map rlen rs' = map rlen rs). { rewrite H4 in N3. unfold of_rows in N3. congruence. }
      assert (In (rlen r') (map rlen rs)) by (rewrite <- EL; now apply in_map).
      apply in_map_iff in H0 as (q & Eq & Hq). specialize (Hmn q Hq). lia.
    + exists x', ld', c', rs', T', r'. auto 10.
  - apply IH; [intros; apply H; now right|]. destruct I as [I|I]; [discriminate|]. exists x', ld', c', rs', T', r'. auto 10.
Qed.

Lemma not_batch_name (nm : dname) : nm = Some "L"%string -> dname_eqb nm (Some BATCH) = false.
Proof. intros ->. reflexivity. Qed.

Lemma existsb_const {A} (f : dname -> bool) nm (l : list A) : existsb f (map (fun _ => nm) l) = match l with [] => false | _ => f nm end.
Proof. induction l as [|a l IH]; cbn; auto. rewrite IH. destruct l; destruct (f nm); auto. Qed.

Lemma removelast_map {A B} (f : A -> B) l : removelast (map f l) = map f (removelast l).
Proof. induction l as [|a l IH]; cbn; auto. rewrite IH. destruct l; reflexivity. Qed.

Lemma meta_add_zero m : mkMeta (ids m) (sos m) (eos m) (map (fun n => n + 0) (lens m)) (chs m) = m.
Proof.
  destruct m as [a b c l d]. cbn. f_equal. induction l; cbn; auto. f_equal; auto. lia.
Qed.

Lemma names_mixed (l : list (@operand V)) dim d nms nm nd :
  (forall x, In (OStream x) l -> names x = nms /\ ndim (tn x) = nd) -> length nms = nd ->
  denotes nd dim d -> nth_error nms d = Some nm ->
  mapM (fun x => names_at_dim x dim) (streams_of l) = Ok (map (fun _ => nm) (streams_of l)).
Proof.
  intros H HL HD E. unfold mapM. induction l as [|[x|t] l IH]; [reflexivity| |].
  - cbn [streams_of flat_map app map seqM]. destruct (H x (or_introl eq_refl)) as [Hn Hx].
    rewrite (names_dim x dim d nm); [|congruence|now rewrite Hx|congruence]. cbn [bind].
    unfold streams_of in IH. rewrite IH; [reflexivity|]. intros; apply H; now right.
  - cbn [streams_of flat_map app]. apply IH. intros; apply H; now right.
Qed.

Lemma fold_unify_mixed nms (l : list (@operand V)) : forall a,
  (a = nms \/ (a = repeat None (length nms) /\ exists x, In (OStream x) l)) ->
  (forall x, In (OStream x) l -> names x = nms) ->
  (forall t, In (OPlain t) l -> ndim t = length nms) ->
  fold_left (fun acc q => do a <- acc; unify_names a (op_names q)) l (Ok a) = Ok nms.
Proof.
  induction l as [|[x|t] l IH]; intros a Ha HS HP.
  - destruct Ha as [->|[_ (x & [])]]. reflexivity.
  - cbn [fold_left bind op_names]. rewrite (HS x (or_introl eq_refl)).
    assert (E : unify_names a nms = Ok nms) by (destruct Ha as [->|[-> _]]; [apply unify_same|apply unify_none_l]).
    rewrite E. apply IH; auto; intros; [apply HS|apply HP]; now right.
  - cbn [fold_left bind op_names]. rewrite (HP t (or_introl eq_refl)).
    assert (E : unify_names a (repeat None (length nms)) = Ok a).
    { destruct Ha as [->|[-> _]]; [apply unify_none_r|apply unify_same]. }
    rewrite E. apply IH; [|intros; apply HS; now right|intros; apply HP; now right].
    destruct Ha as [->|[-> (x & [?|Hx])]]; [now left|discriminate|right; eauto].
Qed.

Lemma plain_sizes (l : list (@operand V)) dim d nd : denotes nd dim d ->
  (forall t, In (OPlain t) l -> ndim t = nd) ->
  mapM (fun t => do k <- norm_dim (ndim t) dim; Ok (size t k)) (plains_of l) = Ok (map (fun t => size t d) (plains_of l)).
Proof.
  intros HD H. unfold mapM. induction l as [|[x|t] l IH]; [reflexivity| |].
  - cbn [plains_of flat_map app]. apply IH. intros; apply H; now right.
  - cbn [plains_of flat_map app map seqM]. rewrite (H t (or_introl eq_refl)), (proj2 (norm_dim_denotes _ _ _) HD). cbn [bind].
    unfold plains_of in IH. rewrite IH; [reflexivity|]. intros; apply H; now right.
Qed.

Lemma cat_length_any m0 t : Forall wf (m0 :: t) -> cat_compatible (m0 :: t) ->
  exists m', cat_length (m0 :: t) = Ok m' /\
    ids m' = ids m0 /\ sos m' = sos m0 /\ eos m' = eos (last t m0) /\ chs m' = chs (last t m0) /\
    length (lens m') = length (ids m0) /\
    (forall j, nth j (lens m') 0 = zsum (map (fun m => nth j (lens m) 0) (m0 :: t))).
Proof.
  intros Hw Hc. destruct t as [|m1 t]; [|apply cat_length_ok; auto; discriminate].
  exists m0. assert (length (lens m0) = length (ids m0)).
  { inversion Hw; subst. apply (wf_lens m0 _); auto. }
  repeat split; auto. intros j. unfold zsum. cbn. lia.
Qed.

Lemma op_len_split ld b (l : list (@operand V)) :
  zsum (map (op_len ld b) l) =
  zsum (map (fun m => nth b (lens m) 0) (map smeta (streams_of l))) + zsum (map (fun t => size t ld) (plains_of l)).
Proof.
  unfold zsum. induction l as [|[x|t] l IH]; cbn [map fold_right streams_of plains_of flat_map app op_len]; [reflexivity| |].
  - unfold streams_of, plains_of in IH. cbn [map fold_right]. lia.
  - unfold streams_of, plains_of in IH. cbn [map fold_right]. unfold size at 1. lia.
Qed.

Lemma streams_of_In (l : list (@operand V)) x : In x (streams_of l) <-> In (OStream x) l.
Proof.
  unfold streams_of. rewrite in_flat_map. split.
  - intros ([q|t] & H & HI); cbn in HI; [destruct HI as [<-|[]]; auto|destruct HI].
  - intros H. exists (OStream x). split; auto. now left.
Qed.

Lemma removelast_In {A} (l : list A) a : In a (removelast l) -> In a l.
Proof.
  induction l as [|b l IH]; cbn; auto. destruct l; [intros []|]. intros [->|H]; auto.
Qed.

Lemma of_rows_wf c rs : wf (of_rows c rs).
Proof. unfold wf, of_rows. cbn. rewrite !map_length. destruct c; cbn; rewrite ?map_length; auto. Qed.

(** What the operands of a concatenation along length are. *)
Lemma cat_length_setup (o0 o1 : @operand V) os dim ld nms :
  let ops := o0 :: o1 :: os in
  along_length ld nms ops -> denotes (length nms) dim ld ->
  cat ops dim = (do _ <- cat_padding_check (removelast ops);
                 do '(t, nn) <- torch_cat ops dim;
                 do m <- cat_length (map smeta (streams_of ops));
                 Ok (OStream (mkSt t nn (mkMeta (ids m) (sos m) (eos m)
                        (map (fun n => n + zsum (map (fun t => size t ld) (plains_of ops))) (lens m)) (chs m))))) /\
  exists t', torch_cat ops dim = Ok (t', nms) /\ concatenated ld (op_tensor o0) (map op_tensor (o1 :: os)) t'.
Proof.
  intros ops (HS & (xe & He) & HL & HF) HD.
  assert (Hall : forall o, In o ops -> same_frame ld (op_tensor o0) (op_tensor o)).
  { intros o Ho. apply HF; auto. now left. }
  assert (Hn0 : ndim (op_tensor o0) = length nms).
  { destruct (HS xe He) as (En & bd & c & rs & T & Hok & Hne).
    destruct (same_frame_size _ _ _ (Hall _ He)) as (_ & _ & E & _). cbn in E. rewrite <- E, <- En. symmetry. apply (so_rank _ _ _ _ _ _ Hok). }
  assert (Hnd : forall o, In o ops -> ndim (op_tensor o) = length nms).
  { intros o Ho. destruct (same_frame_size _ _ _ (Hall o Ho)) as (_ & _ & E & _). congruence. }
  split.
  - unfold ops at 1. rewrite cat_two_or_more. fold ops.
    rewrite (names_mixed ops dim ld nms (Some "L"%string) (length nms)); auto.
    2:{ intros x Hx. split; [apply (HS x Hx)|apply (Hnd _ Hx)]. }
    cbn [bind]. rewrite !existsb_const.
    destruct (streams_of ops) as [|s0 ss] eqn:Es; [apply streams_of_In in He; rewrite Es in He; destruct He|].
    unfold BATCH, LENGTH. change (dname_eqb (Some "L"%string) (Some "B"%string)) with false.
    rewrite (proj2 (dname_eqb_eq (Some "L"%string) _) eq_refl).
    rewrite (plain_sizes ops dim ld (length nms)); auto.
    intros t Ht. apply (Hnd _ Ht).
  - apply (torch_cat_ok o0 (o1 :: os) dim ld nms).
    + now rewrite Hn0.
    + apply (same_frame_size _ _ _ (Hall o0 (or_introl eq_refl))).
    + apply Forall_map. apply Forall_forall. intros o Ho. apply Hall. now right.
    + apply fold_unify_mixed.
      * destruct o0 as [x|t]; cbn [op_names]; [left; apply (HS x); now left|].
        right. split; [f_equal; exact Hn0|]. destruct He as [He|He]; [discriminate|]. eauto.
      * intros x Hx. apply (HS x). now right.
      * intros t Ht. apply (Hnd (OPlain t)). now right.
Qed.

Lemma sum_sizes_lens ld b (l : list (@operand V)) : 
  (forall o, In o l -> op_full ld b o) ->
  zsum (map (fun u => nth ld (shp u) 0) (map op_tensor l)) = zsum (map (op_len ld b) l).
Proof.
  intros H. rewrite map_map. f_equal. apply map_ext_in. intros o Ho. specialize (H o Ho). destruct o; cbn in *; auto.
Qed.

Lemma removelast_nth {A} (l : list A) j a : nth_error l j = Some a -> (S j < length l)%nat -> In a (removelast l).
Proof.
  revert j. induction l as [|b l IH]; intros [|j] H HL; cbn [nth_error length] in *; try discriminate; try lia.
  - injection H as ->. destruct l; cbn in *; [lia|]. now left.
  - cbn [removelast]. destruct l; [cbn in HL; lia|]. right. apply (IH j); auto. cbn in *; lia.
Qed.

Lemma zsum_app l1 l2 : zsum (l1 ++ l2) = zsum l1 + zsum l2.
Proof. unfold zsum. induction l1; cbn; auto. lia. Qed.

Lemma zsum_nonneg_in l : (forall a, In a l -> 0 <= a) -> 0 <= zsum l.
Proof. unfold zsum. induction l; intros H; cbn; [lia|]. assert (0 <= a) by (apply H; now left).
  assert (0 <= fold_right Z.add 0 l) by (apply IHl; intros; apply H; now right). lia. Qed.

Lemma cat_length_mixed (o0 o1 : @operand V) os dim ld nms m0 ms :
  let ops := o0 :: o1 :: os in
  along_length ld nms ops -> denotes (length nms) dim ld ->
  map smeta (streams_of ops) = m0 :: ms -> cat_compatible (m0 :: ms) ->
  (forall o b, In o (removelast ops) -> (b < length (ids m0))%nat -> op_full ld b o) ->
  exists y, cat ops dim = Ok (OStream y) /\ names y = nms /\
    concatenated ld (op_tensor o0) (map op_tensor (o1 :: os)) (tn y) /\
    ids (smeta y) = ids m0 /\ sos (smeta y) = sos m0 /\ eos (smeta y) = eos (last ms m0) /\
    chs (smeta y) = chs (last ms m0) /\ length (lens (smeta y)) = length (ids m0) /\
    (forall b, (b < length (ids m0))%nat ->
       nth b (lens (smeta y)) 0 = zsum (map (op_len ld b) ops) /\
       (forall j o i, nth_error ops j = Some o -> 0 <= i < nth ld (shp (op_tensor o)) 0 ->
          (zsum (map (fun u => nth ld (shp u) 0) (firstn j (map op_tensor ops))) + i < nth b (lens (smeta y)) 0 <-> i < op_len ld b o))).
Proof.
  intros ops HA HD HM HC HFull.
  destruct (cat_length_setup o0 o1 os dim ld nms HA HD) as (EC & t' & ET & HCat). fold ops in EC, ET.
  destruct HA as (HS & (xe & He) & HL & HFr).
  assert (Hsame : forall m, In m (m0 :: ms) -> ids m = ids m0).
  { intros m Hm. apply In_nth_error in Hm as ([|k] & Hk); [cbn in Hk; congruence|].
    destruct HC as (H1 & _). apply (H1 (S k) m m0 Hk eq_refl). lia. }
  assert (Hids : forall x, In (OStream x) ops -> ids (smeta x) = ids m0).
  { intros x Hx. apply Hsame. rewrite <- HM. apply in_map. now apply streams_of_In. }
  assert (Hw : Forall wf (m0 :: ms)).
  { rewrite <- HM. apply Forall_map, Forall_forall. intros x Hx. apply streams_of_In in Hx.
    destruct (HS x Hx) as (_ & bd & c & rs & T & Hok & _). rewrite (so_meta _ _ _ _ _ _ Hok). apply of_rows_wf. }
  destruct (cat_length_any m0 ms Hw HC) as (m' & EM & I1 & I2 & I3 & I4 & I5 & I6).
  assert (EP : cat_padding_check (removelast ops) = Ok tt).
  { apply padding_check_ok. intros x Hx. pose proof (removelast_In _ _ Hx) as Hx'.
    destruct (HS x Hx') as (En & bd & c & rs & T & Hok & Hne).
    exists ld, c, rs, T. split; [apply (so_lname _ _ _ _ _ _ Hok)|]. split; [apply (so_distinct _ _ _ _ _ _ Hok)|].
    split; [apply (so_lsize _ _ _ _ _ _ Hok)|]. split; [apply (so_meta _ _ _ _ _ _ Hok)|]. split; auto.
    apply Forall_forall. intros r Hr. apply In_nth_error in Hr as (b & Hb).
    assert (HL' : length (ids m0) = length rs).
    { rewrite <- (Hids x Hx'), (so_meta _ _ _ _ _ _ Hok). cbn. now rewrite map_length. }
    assert (Hbl : (b < length rs)%nat) by (apply nth_error_Some; congruence).
    specialize (HFull (OStream x) b Hx). cbn [op_full] in HFull. rewrite (so_meta _ _ _ _ _ _ Hok) in HFull. cbn [of_rows lens] in HFull.
    rewrite (nth_error_nth (map rlen rs) b 0 (x:=rlen r)) in HFull by (rewrite nth_error_map, Hb; reflexivity).
    rewrite (nth_error_nth _ _ 0 (so_lsize _ _ _ _ _ _ Hok)) in HFull. apply HFull. lia. }
  rewrite EC, EP. cbn [bind]. rewrite ET. cbn [bind]. rewrite HM, EM. cbn [bind].
  eexists. split; [reflexivity|]. cbn [names tn smeta ids sos eos chs lens].
  split; [reflexivity|]. split; [exact HCat|]. split; [exact I1|]. split; [exact I2|]. split; [exact I3|].
  split; [exact I4|]. split; [now rewrite map_length|]. intros b Hb.
  assert (ELen : nth b (map (fun n => n + zsum (map (fun t => size t ld) (plains_of ops))) (lens m')) 0 = zsum (map (op_len ld b) ops)).
  { rewrite (op_len_split ld b ops), HM, <- I6.
    destruct (nth_error (lens m') b) as [v|] eqn:Ev; [|apply nth_error_None in Ev; lia].
    rewrite (nth_error_nth (lens m') b 0 Ev). apply nth_error_nth. now rewrite nth_error_map, Ev. }
  split; [exact ELen|]. intros j o i Hj Hi. rewrite ELen.
  destruct (nth_error_split _ _ Hj) as (l1 & l2 & E & Hl1).
  rewrite E at 1. rewrite map_app, firstn_app, map_length, Hl1, Nat.sub_diag, <- Hl1. cbn [firstn]. rewrite app_nil_r.
  rewrite firstn_all2 by (rewrite map_length; lia).
  assert (Hfl1 : forall q, In q l1 -> op_full ld b q).
  { intros q Hq. apply HFull; auto. apply In_nth_error in Hq as (k & Hk).
    assert (k < length l1)%nat by (apply nth_error_Some; congruence).
    apply (removelast_nth ops k); [rewrite E, nth_error_app1; auto|]. rewrite E, app_length. cbn [length]. lia. }
  rewrite (sum_sizes_lens ld b l1 Hfl1). rewrite E at 1. rewrite map_app, zsum_app. cbn [map].
  assert (EZ : forall a l, zsum (a :: l) = a + zsum l) by reflexivity. rewrite EZ.
  destruct l2 as [|o2 l2].
  - cbn [map]. change (zsum []) with 0. lia.
  - assert (HfO : op_full ld b o).
    { apply HFull; auto. apply (removelast_nth ops j); auto. rewrite E, app_length. cbn [length]. lia. }
    assert (op_len ld b o = nth ld (shp (op_tensor o)) 0) by (destruct o; cbn in *; congruence).
    assert (0 <= zsum (map (op_len ld b) (o2 :: l2))).
    { apply zsum_nonneg_in. intros v Hv. apply in_map_iff in Hv as (q & <- & Hq).
      assert (Hq' : In q ops) by (rewrite E; apply in_or_app; right; now right).
      destruct q as [x|t]; cbn [op_len].
      - destruct (HS x Hq') as (En & bd & c & rs & T & Hok & Hne). rewrite (so_meta _ _ _ _ _ _ Hok). cbn [of_rows lens].
        destruct (nth_in_or_default b (map rlen rs) 0) as [Hin|Hde]; [|rewrite Hde; lia].
        apply in_map_iff in Hin as (r & <- & Hr). pose proof (so_nonneg _ _ _ _ _ _ Hok) as HN. unfold nonneg in HN.
        rewrite Forall_forall in HN. apply (HN r Hr).
      - apply (same_frame_size ld (op_tensor o0) t). apply (HFr o0 (OPlain t)); auto. now left. }
    lia.
Qed.

Lemma cat_length_refused (o0 o1 : @operand V) os dim ld nms :
  let ops := o0 :: o1 :: os in
  along_length ld nms ops -> denotes (length nms) dim ld ->
  ((exists x b, In (OStream x) (removelast ops) /\ (b < length (lens (smeta x)))%nat /\ ~ op_full ld b (OStream x)) ->
     cat ops dim = Err NotImplementedError) /\
  ((2 <= length (streams_of ops))%nat -> ~ cat_compatible (map smeta (streams_of ops)) -> exists e, cat ops dim = Err e).
Proof.
  intros ops HA HD.
  destruct (cat_length_setup o0 o1 os dim ld nms HA HD) as (EC & t' & ET & HCat). fold ops in EC, ET.
  destruct HA as (HS & (xe & He) & HL & HFr). split.
  - intros (x & b & Hx & Hb & Hnf). rewrite EC.
    rewrite padding_check_bad; [reflexivity| |].
    + intros q Hq. apply removelast_In in Hq. destruct (HS q Hq) as (En & bd & c & rs & T & Hok & Hne).
      exists ld, c, rs, T. split; [apply (so_lname _ _ _ _ _ _ Hok)|]. split; [apply (so_distinct _ _ _ _ _ _ Hok)|].
      split; [apply (so_lsize _ _ _ _ _ _ Hok)|]. split; [apply (so_meta _ _ _ _ _ _ Hok)|]. split; auto.
      apply (so_fit _ _ _ _ _ _ Hok).
    + pose proof (removelast_In _ _ Hx) as Hx'. destruct (HS x Hx') as (En & bd & c & rs & T & Hok & Hne).
      rewrite (so_meta _ _ _ _ _ _ Hok) in Hb. cbn [of_rows lens] in Hb. rewrite map_length in Hb.
      destruct (nth_error rs b) as [r|] eqn:Er; [|apply nth_error_None in Er; lia].
      exists x, ld, c, rs, T, r. split; auto. split; [apply (so_lname _ _ _ _ _ _ Hok)|].
      split; [apply (so_lsize _ _ _ _ _ _ Hok)|]. split; [apply (so_meta _ _ _ _ _ _ Hok)|].
      split; [now apply nth_error_In in Er|].
      cbn [op_full] in Hnf. rewrite (so_meta _ _ _ _ _ _ Hok) in Hnf. cbn [of_rows lens] in Hnf.
      rewrite (nth_error_nth (map rlen rs) b 0 (x:=rlen r)) in Hnf by (rewrite nth_error_map, Er; reflexivity).
      rewrite (nth_error_nth _ _ 0 (so_lsize _ _ _ _ _ _ Hok)) in Hnf.
      pose proof (so_fit _ _ _ _ _ _ Hok) as HF. rewrite Forall_forall in HF. apply nth_error_In in Er. specialize (HF r Er). lia.
  - intros H2 Hc. rewrite EC. destruct (cat_padding_check (removelast ops)) as [u|e]; [|cbn; eauto].
    cbn [bind]. rewrite ET. cbn [bind].
    destruct (map smeta (streams_of ops)) as [|m0 [|m1 ms]] eqn:E.
    { apply (f_equal (@length _)) in E. rewrite map_length in E. cbn [length] in E. lia. }
    { apply (f_equal (@length _)) in E. rewrite map_length in E. cbn [length] in E. lia. }
    rewrite cat_length_bad; [cbn; eauto|discriminate|exact Hc].
Qed.

(* ---------- other dimensions ---------- *)

Lemma meta_dec (a b : meta) : {a = b} + {a <> b}.
Proof.
  assert (forall o1 o2 : option (list Z), {o1 = o2} + {o1 <> o2}).
  { intros [l|] [l'|]; try (right; congruence); try (left; congruence).
    destruct (list_eq_dec Z.eq_dec l l'); [left; congruence|right; congruence]. }
  decide equality; apply list_eq_dec; first [apply Z.eq_dec|apply bool_dec|apply string_dec].
Qed.

Lemma same_meta_nochunks m0 xs : chs m0 = None -> Forall (fun x => chs (smeta x) = None) xs ->
  (Forall (fun x => smeta x = m0) xs -> cat_same_meta (Ok m0) (map (@OStream V) xs) = Ok tt) /\
  (~ Forall (fun x => smeta x = m0) xs -> cat_same_meta (Ok m0) (map (@OStream V) xs) = Err AttributeError).
Proof.
  intros H0 HN. induction HN as [|x xs Hx HN [IH1 IH2]]; split; intros H.
  - reflexivity.
  - exfalso. apply H. constructor.
  - inversion H; subst. cbn [map cat_same_meta op_meta bind].
    rewrite (proj1 (meta_eq_nochunks (smeta x) (smeta x) H0 H0) eq_refl). cbn [bind]. auto.
  - cbn [map cat_same_meta op_meta bind]. destruct (meta_dec (smeta x) m0) as [D|D].
    + rewrite D. rewrite (proj1 (meta_eq_nochunks m0 m0 H0 H0) eq_refl). cbn [bind]. apply IH2. intros F. apply H. constructor; auto.
    + now rewrite (proj2 (meta_eq_nochunks _ _ Hx H0) D).
Qed.

Lemma cat_other_setup x0 x1 xs dim d nm :
  alike d x0 (x1 :: xs) -> denotes (ndim (tn x0)) dim d -> nth_error (names x0) d = Some nm ->
  nm <> Some "B"%string -> nm <> Some "L"%string ->
  exists t', concatenated d (tn x0) (map tn (x1 :: xs)) t' /\
  cat (map OStream (x0 :: x1 :: xs)) dim =
    (do _ <- cat_same_meta (Ok (smeta x0)) (map OStream (removelast (x0 :: x1 :: xs)));
     Ok (OStream (mkSt t' (names x0) (smeta x0)))).
Proof.
  intros HA HD HN NB NL. pose proof (alike_names_at _ _ _ _ _ HA HD HN) as EN.
  destruct (cat_streams_torch _ _ _ _ HA HD) as (t' & ET & HC). exists t'. split; auto.
  cbn [map]. rewrite cat_two_or_more.
  change (OStream x0 :: OStream x1 :: map OStream xs) with (map OStream (x0 :: x1 :: xs)).
  rewrite streams_of_map, EN, removelast_map, ET. cbn [bind]. rewrite !existsb_const. unfold BATCH, LENGTH.
  replace (dname_eqb nm (Some "B"%string)) with false.
  2:{ symmetry. apply not_true_iff_false. rewrite dname_eqb_eq. auto. }
  replace (dname_eqb nm (Some "L"%string)) with false.
  2:{ symmetry. apply not_true_iff_false. rewrite dname_eqb_eq. auto. }
  reflexivity.
Qed.

Lemma cat_other_nochunks x0 x1 xs dim d nm :
  alike d x0 (x1 :: xs) -> denotes (ndim (tn x0)) dim d -> nth_error (names x0) d = Some nm ->
  nm <> Some "B"%string -> nm <> Some "L"%string ->
  Forall (fun x => chs (smeta x) = None) (x0 :: x1 :: xs) ->
  (Forall (fun x => smeta x = smeta x0) (removelast (x1 :: xs)) ->
     exists y, cat (map OStream (x0 :: x1 :: xs)) dim = Ok (OStream y) /\ names y = names x0 /\ smeta y = smeta x0 /\
       concatenated d (tn x0) (map tn (x1 :: xs)) (tn y)) /\
  (~ Forall (fun x => smeta x = smeta x0) (removelast (x1 :: xs)) ->
     cat (map OStream (x0 :: x1 :: xs)) dim = Err AttributeError).
Proof.
  intros HA HD HN NB NL HC. destruct (cat_other_setup _ _ _ _ _ _ HA HD HN NB NL) as (t' & HCat & E). rewrite E.
  change (removelast (x0 :: x1 :: xs)) with (x0 :: removelast (x1 :: xs)).
  assert (H0 : chs (smeta x0) = None) by now inversion HC.
  assert (HR : Forall (fun x => chs (smeta x) = None) (x0 :: removelast (x1 :: xs))).
  { constructor; auto. rewrite Forall_forall in *. intros x Hx. apply HC. right. now apply removelast_In. }
  destruct (same_meta_nochunks (smeta x0) _ H0 HR) as [S1 S2]. split; intros H.
  - rewrite S1 by (constructor; auto). cbn [bind]. eexists. split; [reflexivity|]. cbn. auto.
  - rewrite S2; [reflexivity|]. intros F. inversion F; auto.
Qed.

Lemma cat_other_chunks x0 x1 xs dim d nm cs :
  alike d x0 (x1 :: xs) -> denotes (ndim (tn x0)) dim d -> nth_error (names x0) d = Some nm ->
  nm <> Some "B"%string -> nm <> Some "L"%string ->
  chs (smeta x0) = Some cs -> cs <> lens (smeta x0) ->
  cat (map OStream (x0 :: x1 :: xs)) dim = Err ValueError.
Proof.
  intros HA HD HN NB NL HC Hne. destruct (cat_other_setup _ _ _ _ _ _ HA HD HN NB NL) as (t' & HCat & E). rewrite E.
  change (removelast (x0 :: x1 :: xs)) with (x0 :: removelast (x1 :: xs)). cbn [map cat_same_meta op_meta bind].
  rewrite (meta_eq_left_chunks _ _ _ HC). cbn [bind].
  destruct (list_eqb Z.eqb cs (lens (smeta x0))) eqn:El; [|reflexivity].
  apply (list_eqb_eq Z.eqb Z.eqb_eq) in El. contradiction.
Qed.

End Cat.

(** Proofs: collecting, padding, batching and the whole example program on tensors and on lists of columns. *)

From Coq Require Import String List ZArith Bool Lia.
From Coq Require Import ZifyBool.
From Verif Require Import Py Meta MetaSpec MetaProofs Named NamedSpec Pad Conv ConvSpec ConvProofs Stack StackSpec ConvTensor ConvTensorSpec ConvTensorProofs
  ConvNet ConvNetSpec ConvNetProofs Ragged RaggedSpec RaggedProofs PadTensorProofs Collector AlignTo Program ProgramTensor ProgramTensorSpec
  Pipeline ProgramTensorProofs.
Import ListNotations.
Open Scope Z_scope.

Section ProgramTensorRunProofs.
Context {V : Type} (A : arith V).
Notation tensor := (@tensor V).
Notation stensor := (@stensor V).
Notation F := (Some "F"%string).
Notation L := (Some "L"%string).

Lemma channel_F : channel_name F.
Proof. split; discriminate. Qed.

(* ---- collecting *)

Lemma cat_columns c (t u : tensor) xs ys : holds_columns c t xs -> holds_columns c u ys ->
  holds_columns c (mkTn (list_set (shp t) 1 (zsum (map (fun t => size t 1) [t; u]))) (cat_at 1 t [u])) (xs ++ ys).
Proof.
  intros H H'. apply (columns_get A) in H. apply (columns_get A) in H'. destruct H as (H1 & H2 & H3), H' as (K1 & K2 & K3). apply (columns_get A).
  split; [|split].
  - cbn [shp map]. unfold size. rewrite H1, K1. cbn [list_set zsum nth]. rewrite app_length. f_equal. f_equal. cbn [zsum fold_right]. unfold zsum; cbn [fold_right fold_left]. lia.
  - apply Forall_app. auto.
  - intros p j Hp Hj. rewrite app_length in Hp. cbn [at_ cat_at nth]. unfold size. rewrite H1. cbn [nth]. unfold getc.
    destruct (Z.of_nat p <? Z.of_nat (length xs)) eqn:E.
    + rewrite H3 by lia. unfold getc. now rewrite app_nth1 by lia.
    + cbn [list_set]. replace (Z.of_nat p - Z.of_nat (length xs)) with (Z.of_nat (p - length xs)) by lia. rewrite K3 by lia.
      unfold getc. now rewrite app_nth2 by lia.
Qed.

Lemma map_add_zero (l : list Z) : map (fun n => n + zsum []) l = l.
Proof. rewrite <- (map_id l) at 2. apply map_ext. intros n. cbn. lia. Qed.

Lemma cat_agree c (x y : stensor) a b : holds_single c F x a -> holds_single c F y b ->
  agree (holds_single c F) (tcat_two x y) (cat_two a b).
Proof.
  intros [D1 N1 M1] [D2 N2 M2]. unfold tcat_two. rewrite N2. change (names_index (Some LENGTH) [F; L]) with (@Ok nat 1%nat). cbn [bind].
  change (Z.of_nat 1) with 1. unfold cat, streams_of, plains_of. cbn [flat_map app map]. unfold mapM. cbn [map seqM]. unfold names_at_dim. rewrite N1, N2.
  change (py_getitem [F; L] 1) with (@Ok dname L). cbn [bind existsb]. change (dname_eqb L (Some BATCH)) with false. change (dname_eqb L (Some LENGTH)) with true. cbn [orb]. cbn iota.
  cbn [removelast cat_padding_check]. unfold cat_two, min_length. rewrite M1, M2, N1. destruct (zmin (lens (sm a))) as [lo|e]; [|reflexivity]. cbn [bind].
  change (names_index (Some LENGTH) [F; L]) with (@Ok nat 1%nat). cbn [bind].
  pose proof D1 as D1'. pose proof D2 as D2'. apply (columns_get A) in D1'. apply (columns_get A) in D2'. destruct D1' as (S1 & _), D2' as (S2 & _).
  replace (size (tn x) 1) with (zlen (sd a)) by (unfold size; rewrite S1; reflexivity).
  destruct (lo <? zlen (sd a)); [reflexivity|]. cbn [bind].
  unfold torch_cat. cbn [map op_tensor]. unfold ndim. rewrite S1. cbn [length]. change (norm_dim 2 1) with (@Ok nat 1%nat). cbn [bind forallb].
  assert (E : same_but 1 [Z.of_nat c; Z.of_nat (length (sd a))] (shp (tn y)) = true).
  { rewrite S2. unfold same_but, remove_nth. cbn [firstn skipn app length Nat.eqb andb list_eqb]. now rewrite Z.eqb_refl. }
  rewrite E. cbn [negb andb tl hd fold_left op_names]. rewrite N1, N2.
  change (unify_names [F; L] [F; L]) with (@Ok (list dname) [F; L]). cbn [bind].
  destruct (cat_length [sm a; sm b]) as [m|e]; [|reflexivity]. cbn [bind agree]. rewrite <- S1.
  constructor; cbn [tn names smeta sd sm]; [now apply cat_columns|reflexivity|].
  rewrite map_add_zero. now destruct m.
Qed.

Definition same_collected (c : nat) (st : tcollector V) (st' : collector (list V)) : Prop :=
  (forall i, match tentries st i, entries st' i with
             | Some x, Some s => holds_single c F x s
             | None, None => True
             | _, _ => False
             end) /\ (forall i, tclosed st i = closed st' i).

Definition same_outcome (c : nat) (r : tcollector V * option exn) (r' : collector (list V) * option exn) : Prop :=
  same_collected c (fst r) (fst r') /\ snd r = snd r'.

Lemma same_close c st st' i : same_collected c st st' -> same_collected c (tclose st i) (close st' i).
Proof. intros (H1 & H2). split; [exact H1|]. intros j. cbn. now rewrite H2. Qed.

Lemma same_store c st st' i x s : same_collected c st st' -> holds_single c F x s -> same_collected c (tstore st i x) (store st' i s).
Proof.
  intros (H1 & H2) H. split; [|exact H2]. intros j. cbn [tstore store tentries entries]. destruct (String.eqb j i); [exact H|apply H1].
Qed.

Lemma update_unary_agree c st st' x s : same_collected c st st' -> holds_single c F x s ->
  same_outcome c (tupdate_unary st x) (update_unary st' s).
Proof.
  intros HS HX. pose proof HX as [_ _ HM]. unfold tupdate_unary, update_unary. rewrite HM. destruct (ids (sm s)) as [|i r]; [split; auto|].
  pose proof HS as (_ & HC). rewrite HC. destruct (closed st' i); [split; auto|]. destruct (Collector.item (eos (sm s))) as [e|e]; [|split; auto].
  assert (HS1 : same_collected c (if e then tclose st i else st) (if e then close st' i else st')) by (destruct e; [now apply same_close|exact HS]).
  revert HS1. cbv zeta. generalize (if e then tclose st i else st). generalize (if e then close st' i else st'). intros u' u HS1.
  destruct (Collector.item (sos (sm s))) as [o|o]; [|split; auto]. pose proof HS1 as (HE & _). specialize (HE i).
  destruct (tentries u i) as [old|], (entries u' i) as [old'|]; try contradiction.
  - destruct o; [split; auto|]. pose proof (cat_agree c old x old' s HE HX) as HA. destruct (tcat_two old x), (cat_two old' s); cbn in HA; try contradiction.
    + split; [now apply same_store|reflexivity].
    + subst. split; auto.
  - destruct o; [|split; auto]. split; [now apply same_store|reflexivity].
Qed.

Lemma update_rows_agree c : forall xs ss, Forall2 (holds_single c F) xs ss -> forall st st', same_collected c st st' ->
  same_outcome c (tupdate_rows st xs) (update_rows st' ss).
Proof.
  induction 1 as [|x s xs ss HX HF IH]; intros st st' HS; cbn [tupdate_rows update_rows]; [split; auto|].
  rewrite (hs_meta _ _ _ _ HX). destruct (max_length (sm s)) as [n|e]; [|split; auto]. destruct (0 <? n); [|now apply IH].
  pose proof (update_unary_agree c st st' x s HS HX) as (H1 & H2). destruct (tupdate_unary st x) as (u, o), (update_unary st' s) as (u', o'). cbn [fst snd] in *. subst o'.
  destruct o; [split; auto|]. now apply IH.
Qed.

Lemma update_agree c st st' y b : same_collected c st st' -> holds c F y b ->
  same_outcome c (tupdate st y) (update st' [InBatch b]).
Proof.
  intros HS HY. unfold tupdate. rewrite (h_names _ _ _ _ HY). change (names_mem (Some BATCH) [Some "B"%string; F; L]) with true. cbn iota.
  cbn [update update_one]. pose proof (unpad_agree A c F y b channel_F HY) as HU.
  destruct (unpad_sequence_t y) as [xs|e], (unpad_sequence b) as [ss|e']; cbn in HU; try contradiction.
  - pose proof (update_rows_agree c xs ss HU st st' HS) as (H1 & H2). destruct (tupdate_rows st xs) as (u, o), (update_rows st' ss) as (u', o'). cbn [fst snd] in *. subst o'.
    destruct o; split; auto.
  - subst. split; auto.
Qed.

Lemma stream_loop_agree c z Ls qs c' z' : mask_clears A -> network A c z Ls qs c' z' ->
  forall xs bs, Forall2 (holds c F) xs bs -> Forall described bs -> forall sts sts', net_buffers c Ls sts sts' ->
  forall st st', same_collected c' st st' ->
  agree (same_collected c') (tstream_loop A Ls sts st xs) (stream_loop (column_layers A c Ls qs) sts' st' bs).
Proof.
  intros HA HN. induction 1 as [|x b xs bs HX HF IH]; intros HD sts sts' HB st st' HS; cbn [tstream_loop stream_loop]; [exact HS|].
  inversion HD; subst. eapply agree_bind; [eapply (net_call_ok A F HA channel_F c z Ls qs c' z' HN sts sts' x b); eauto|].
  intros (y, s1) (b1, s1') (K1 & K2). cbn [fst snd] in K1, K2. pose proof (update_agree c' st st' y b1 HS K1) as (U1 & U2).
  destruct (tupdate st y) as (u, o), (update st' [InBatch b1]) as (u', o'). cbn [fst snd] in *. subst o'. destruct o; [reflexivity|]. now apply IH.
Qed.

(* ---- padding *)

Lemma Forall2_In_l {X Y} (P : X -> Y -> Prop) l l' : Forall2 P l l' -> forall a, In a l -> exists b, In b l' /\ P a b.
Proof.
  induction 1 as [|a b l l' H HF IH]; intros u Hu; [contradiction|]. destruct Hu as [<-|Hu]; [exists b; split; [now left|exact H]|].
  destruct (IH u Hu) as (v & Hv & K). exists v. split; [now right|exact K].
Qed.

Lemma nth_repeat_in {X} (a d : X) n k : (k < n)%nat -> nth k (repeat a n) d = a.
Proof. revert k. induction n as [|n IH]; intros [|k] H; cbn [repeat nth]; try lia; [reflexivity|]. apply IH. lia. Qed.

Lemma longest_max (a : nat) ns : fold_left Z.max (map Z.of_nat ns) (Z.of_nat a) = Z.of_nat (max_nat (a :: ns)).
Proof.
  unfold max_nat. revert a. induction ns as [|n ns IH]; intros a; cbn [map fold_left fold_right]; [lia|].
  replace (Z.max (Z.of_nat a) (Z.of_nat n)) with (Z.of_nat (Nat.max a n)) by lia. rewrite IH. cbn [fold_right]. lia.
Qed.

Lemma pad_chunks_agree c (ts : list tensor) cols i s e : Forall2 (holds_columns c) ts cols ->
  agree (fun x b => holds c F x b /\ described b)
    (do x <- pad_chunks_t (zero A) ts [F; L] i s e false; align_to x bfl)
    (pad_chunks (repeat (zero A) c) cols ["F"; "L"]%string i s e).
Proof.
  intros HF. unfold pad_chunks_t, pad_chunks. change (names_mem (Some BATCH) [F; L]) with false. change (names_index (Some LENGTH) [F; L]) with (@Ok nat 1%nat). cbn [bind]. cbn iota.
  change (existsb (String.eqb "B") ["F"; "L"]%string) with false. change (existsb (String.eqb "L") ["F"; "L"]%string) with true. cbn [negb]. cbn iota.
  change (1 :: filter (fun d => negb (Nat.eqb d 1)) (seq 0 (length [F; L])))%nat with (1 :: seq 0 1 ++ seq 2 0)%nat.
  assert (HR : Forall (fun t => length (shp t) = (1 + 1)%nat) ts).
  { clear -HF. induction HF as [|t col ts cols H HF IH]; constructor; [|exact IH]. destruct H as (-> & _). reflexivity. }
  destruct (front_all 1 0 ts HR) as (l' & E & HL). change (Nat.eqb 1 0) with false in E |- *. cbn iota in E |- *. rewrite E. cbn [bind].
  assert (H0 : Forall (fun t => ndim t <> O) l').
  { clear -HL. induction HL; constructor; [|assumption]. rewrite (fronted_ndim _ _ _ _ H). discriminate. }
  rewrite (mapM_first l' H0). cbn [bind].
  destruct HL as [|t0 t0' l l1 HL0 HL]; [inversion HF; subst; reflexivity|].
  destruct cols as [|col0 cols]; [inversion HF|].
  assert (HS : Forall2 (fun t' col => shp t' = [Z.of_nat (length col); Z.of_nat c] /\ Forall (fun q => length q = c) col /\
                 forall p j, (p < length col)%nat -> (j < c)%nat -> at_ t' (copy_source (shp t') [Z.of_nat p; Z.of_nat j]) = getc A col p j) (t0' :: l1) (col0 :: cols)).
  { assert (HLL : Forall2 (fronted 1 0) (t0 :: l) (t0' :: l1)) by (constructor; assumption). clear -HF HLL. revert HF. generalize (col0 :: cols). induction HLL as [|t t' ts ts' Ht HLL IH]; intros cols' HF; inversion HF as [|? col ? cols2 HC HF']; subst; constructor; [|now apply IH].
    apply (columns_get A) in HC. destruct HC as (S1 & S2 & S3). pose proof Ht as ((s1 & n & s2 & Es & Ls1 & Ls2 & Es') & _). rewrite S1 in Es.
    destruct s1 as [|u [|]]; try discriminate. destruct s2; [|discriminate]. cbn in Es. injection Es as <- <-. split; [rewrite Es'; reflexivity|]. split; [exact S2|].
    intros p j Hp Hj. rewrite <- S3 by assumption.
    apply (reads_front 1 0 t t' [Z.of_nat j] (Z.of_nat p) [] [Z.of_nat j; Z.of_nat p]); auto. apply reads_at_self. rewrite S1. constructor; [lia|]. constructor; [lia|constructor]. }
  destruct (pad_tensors_same (zero A) false 1 t0' l1) as (r & Er & Sr & Dr).
  { clear -HS. induction HS as [|t' col ts cls (H & _) HSx IH]; constructor; [unfold ndim; now rewrite H|exact IH]. }
  { intros t Ht d Hd. left. assert (d = 1)%nat as -> by lia.
    assert (HT : forall t, In t (t0' :: l1) -> nth 1 (shp t) 0 = Z.of_nat c).
    { clear -HS. intros t Ht. destruct (Forall2_In_l _ _ _ HS t Ht) as (col & _ & H & _). now rewrite H. }
    rewrite (HT t Ht), (HT t0' (or_introl eq_refl)). reflexivity. }
  rewrite Er. cbn [bind].
  assert (Sr' : shp r = [Z.of_nat (max_nat (map (@length (list V)) (col0 :: cols))); zlen (t0' :: l1); Z.of_nat c]).
  { rewrite Sr. inversion HS as [|? ? ? ? (H1 & _) HS']; subst. rewrite H1. cbn [tl app]. f_equal.
    unfold longest, first_size, size. rewrite H1. cbn [nth map]. rewrite <- longest_max. f_equal. clear -HS'. induction HS' as [|t' col ts cls (H & _) HSx IH]; [reflexivity|].
    cbn [map]. rewrite H, IH. reflexivity. }
  assert (EL : map first_size (t0' :: l1) = map (fun t => zlen t) (col0 :: cols)).
  { clear -HS. induction HS as [|t' col ts cls (H & _) HSx IH]; [reflexivity|]. cbn [map]. unfold first_size at 1, size. rewrite H, IH. reflexivity. }
  assert (ER : rename (ndim r) ([Some LENGTH; Some BATCH] ++ filter (fun a => negb (dname_eqb a (Some LENGTH))) [F; L]) = Ok [L; Some "B"%string; F]).
  { unfold ndim. rewrite Sr'. reflexivity. }
  rewrite ER. cbn [bind]. rewrite EL.
  change (torch_pad_sequence (repeat (zero A) c) (col0 :: cols))
    with (@Ok (nat * list (list (list V))) (max_nat (map (@length (list V)) (col0 :: cols)), map (pad_to (repeat (zero A) c) (max_nat (map (@length (list V)) (col0 :: cols)))) (col0 :: cols))).
  cbn [bind]. set (w := max_nat (map (@length (list V)) (col0 :: cols))) in *.
  assert (HW : forall col, In col (col0 :: cols) -> (length col <= w)%nat).
  { intros col Hc. unfold w. clear -Hc. unfold max_nat. induction (col0 :: cols) as [|q qs IH]; [contradiction|]. cbn [map fold_right]. destruct Hc as [->|Hc]; [lia|]. specialize (IH Hc). lia. }
  destruct (make_meta i s e (map (fun t => zlen t) (col0 :: cols)) None) as [m|er] eqn:EM; [|reflexivity]. cbn [bind].
  set (x := mkSt r [L; Some "B"%string; F] m).
  assert (EA : align_to x bfl = Ok (mkSt (mkTn [size r 1; size r 2; size r 0] (fun ix => at_ r [nth 2 ix 0; nth 0 ix 0; nth 1 ix 0])) bfl m)) by reflexivity.
  rewrite EA. cbn [agree].
  assert (HN : length (t0' :: l1) = length (col0 :: cols)) by (clear -HS; induction HS; cbn [length]; congruence).
  split.
  - constructor; cbn [tn names smeta bw bd bm]; [|reflexivity|reflexivity]. apply (holds_get A). split; [|split].
    + cbn [shp]. unfold size. rewrite Sr'. cbn [nth]. unfold zlen. rewrite map_length, HN. reflexivity.
    + unfold sized. rewrite Forall_map, Forall_forall. intros col Hc. destruct (Forall2_In_r _ _ _ HS col Hc) as (t' & _ & _ & H2 & _). unfold pad_to. split.
      * rewrite app_length, repeat_length. specialize (HW col Hc). lia.
      * apply Forall_app. split; [exact H2|]. rewrite Forall_forall. intros q Hq. apply repeat_spec in Hq. subst. apply repeat_length.
    + intros b p j Hb Hp Hj. rewrite map_length in Hb. cbn [at_ nth].
      destruct (nth_error (t0' :: l1) b) as [t'|] eqn:Et; [|apply nth_error_None in Et; lia].
      destruct (Forall2_nth_error _ _ _ HS b t' Et) as (col & Ec & (S1 & S2 & S3)).
      specialize (Dr b t' (Z.of_nat p) [Z.of_nat j] Et eq_refl). cbn iota in Dr. rewrite Dr.
      unfold get. erewrite (nth_error_nth (map _ _) b) by (rewrite nth_error_map, Ec; reflexivity).
      unfold first_size, size. rewrite S1. cbn [nth]. unfold pad_to. destruct (Z.of_nat p <? Z.of_nat (length col)) eqn:E2.
      * rewrite <- S1, S3 by lia. unfold getc. now rewrite app_nth1 by lia.
      * rewrite app_nth2 by lia. rewrite nth_repeat_in by (specialize (HW col (nth_error_In _ _ Ec)); lia). now rewrite nth_repeat_zero.
  - unfold make_meta in EM. destruct (_ && _) eqn:EB; [|discriminate]. injection EM as <-.
    destruct (wf_of_rows (mkMeta i s e (map (fun t => zlen t) (col0 :: cols)) None)) as (h & rs & Ers).
    { unfold wf. cbn [ids sos eos lens chs]. lia. }
    exists h, rs. cbn [bm bd bw]. split; [exact Ers|].
    pose proof (f_equal lens Ers) as EQ. cbn [lens of_rows] in EQ. split.
    + rewrite map_length. apply (f_equal (@length Z)) in EQ. rewrite !map_length in EQ. now symmetry.
    + rewrite <- (Forall_map rlen (fun n => 0 <= n <= Z.of_nat w)). rewrite <- EQ, Forall_map, Forall_forall. intros col Hc. unfold zlen. specialize (HW col Hc). lia.
Qed.

End ProgramTensorRunProofs.

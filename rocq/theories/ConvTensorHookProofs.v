(** Proofs: the hooks of a convolution on tensors agree with those of the model on columns. *)

From Coq Require Import String List ZArith Bool Lia.
From Coq Require Import ZifyBool.
From Verif Require Import Py Meta MetaSpec MetaProofs MetaBatchProofs Named NamedSpec Ragged RaggedSpec RaggedProofs PadTensorProofs UnpadTensorProofs NamedShapeProofs NamedCatProofs.
From Verif Require Import Pad Conv ConvTensor ConvTensorSpec ConvTensorProofs.
Import ListNotations.
Open Scope Z_scope.

Section ConvTensorHookProofs.
Context {V : Type} (A : arith V).

(* ---- putting buffers in front *)

Lemma name_ne f n : f <> Some n -> dname_eqb f (Some n) = false.
Proof. intros H. destruct f as [f|]; [|reflexivity]. cbn. destruct (String.eqb_spec f n); [congruence|reflexivity]. Qed.

Lemma cat_buffer_ok d (bt : @tensor V) (x : @stensor V) : length (names x) = S d -> ndim (tn x) = S d ->
  nth_error (names x) d = Some (Some "L"%string) -> same_frame d bt (tn x) ->
  exists y, cat_buffer bt x = Ok y /\ names y = names x /\ concatenated d bt [tn x] (tn y) /\
    smeta y = with_lens (smeta x) (map (fun l => l + nth d (shp bt) 0) (lens (smeta x))).
Proof.
  intros HN HX HL HS. destruct (same_frame_size _ _ _ HS) as (Hb & _ & Hnd & _). rewrite HX in Hnd.
  assert (HD : denotes (S d) (-1) d) by (unfold denotes; lia).
  set (ops := [OPlain bt; OStream x]).
  assert (EC : cat ops (-1) = (do _ <- cat_padding_check (removelast ops);
                 do '(t, nn) <- torch_cat ops (-1);
                 do m <- cat_length (map smeta (streams_of ops));
                 Ok (OStream (mkSt t nn (mkMeta (ids m) (sos m) (eos m)
                        (map (fun n => n + zsum (map (fun t => size t d) (plains_of ops))) (lens m)) (chs m)))))).
  { unfold ops at 1. rewrite cat_two_or_more. fold ops.
    rewrite (names_mixed ops (-1) d (names x) (Some "L"%string) (S d)); auto.
    2:{ intros y [H|[H|[]]]; inversion H; subst. auto. }
    cbn [bind]. change (streams_of ops) with [x]. cbn [map existsb].
    unfold BATCH, LENGTH. change (dname_eqb (Some "L"%string) (Some "B"%string)) with false.
    change (dname_eqb (Some "L"%string) (Some "L"%string)) with true. cbn [orb].
    rewrite (plain_sizes ops (-1) d (S d)); auto.
    intros t [H|[H|[]]]; inversion H; subst. auto. }
  assert (ET : exists t', torch_cat ops (-1) = Ok (t', names x) /\ concatenated d bt [tn x] t').
  { apply (torch_cat_ok (OPlain bt) [OStream x] (-1) d (names x)); cbn [op_tensor map].
    - now rewrite <- Hnd.
    - exact Hb.
    - constructor; auto.
    - apply fold_unify_mixed.
      + right. split; [|exists x; now left]. 
        cbn [op_names].
        f_equal. transitivity (S d); now symmetry.
      + intros y [H|[]]. inversion H; subst. auto.
      + intros y [H|[]]. inversion H. }
  destruct ET as (t' & ET & HC).
  unfold cat_buffer. fold ops. rewrite EC, ET. change (cat_padding_check (removelast ops)) with (Ok tt). cbn [bind].
  change (streams_of ops) with [x]. change (plains_of ops) with [bt]. cbn [map cat_length bind clone].
  eexists. split; [reflexivity|]. cbn [names tn smeta]. split; auto. split; auto.
  unfold clone, with_lens. cbn [ids sos eos lens chs]. f_equal. apply map_ext. intros n. unfold zsum, size. cbn. lia.
Qed.

Lemma cat_stack_ok c f n bt bs (x : @stensor V) b : holds_data c n bt bs -> holds c f x b -> length bs = length (bd b) ->
  exists y, cat_buffer bt x = Ok y /\
    holds c f y (mkBatch (n + bw b) (map (fun p => fst p ++ snd p) (zip bs (bd b))) (with_lens (bm b) (map (fun l => l + Z.of_nat n) (lens (bm b))))).
Proof.
  intros HB [HX HN HMe] HL. pose proof (proj1 HB) as SB. pose proof (proj1 HX) as SX.
  destruct (cat_buffer_ok 2 bt x) as (y & E & EN & (HS & HC) & EM).
  - now rewrite HN.
  - unfold ndim. now rewrite SX.
  - now rewrite HN.
  - exists [Z.of_nat (length bs); Z.of_nat c], (Z.of_nat n), (Z.of_nat (bw b)), []. rewrite SB, SX, HL. repeat split; lia.
  - exists y. split; [exact E|]. constructor; cbn [bw bd bm].
    + apply (holds_get A) in HB as (_ & ZB & GB). apply (holds_get A) in HX as (_ & ZX & GX).
      assert (LZ : length (zip bs (bd b)) = length bs) by (apply length_zip; exact HL).
      apply (holds_get A). split; [|split].
      * rewrite HS, SB. cbn [firstn skipn map nth app]. rewrite SB, SX, map_length, LZ. unfold zsum. cbn [fold_right nth]. repeat f_equal. lia.
      * unfold sized in *. rewrite Forall_forall in *. intros r Hr. apply in_map_iff in Hr as ((r1, r2) & <- & Hin).
        apply In_zip in Hin as (H1 & H2). destruct (ZB _ H1) as (K1 & K2). destruct (ZX _ H2) as (K3 & K4). cbn [fst snd].
        rewrite app_length. split; [lia|]. apply Forall_app. auto.
      * intros i q j Hi Hq Hj. rewrite map_length, LZ in Hi. unfold get.
        rewrite (nth_map_lt (fun p0 : list (list V) * list (list V) => fst p0 ++ snd p0) (zip bs (bd b)) i [] ([], [])) by (rewrite LZ; exact Hi).
        rewrite (nth_zip bs (bd b) i [] []) by exact HL. cbn [fst snd].
        assert (LR : length (nth i bs []) = n).
        { unfold sized in ZB. rewrite Forall_forall in ZB. apply ZB. apply nth_In. exact Hi. }
        destruct (Nat.ltb_spec q n) as [Hlt|Hge].
        -- rewrite app_nth1 by lia. specialize (HC 0%nat bt [Z.of_nat i; Z.of_nat j] (Z.of_nat q) [] eq_refl eq_refl).
           cbn [firstn map app] in HC. unfold zsum in HC. cbn [fold_right] in HC. rewrite Z.add_0_l in HC. rewrite HC by (rewrite SB; cbn [nth]; lia). apply GB; lia.
        -- rewrite app_nth2 by lia. rewrite LR. specialize (HC 1%nat (tn x) [Z.of_nat i; Z.of_nat j] (Z.of_nat (q - n)) [] eq_refl eq_refl).
           cbn [firstn map app] in HC. unfold zsum in HC. cbn [fold_right] in HC. rewrite SB, SX in HC. cbn [nth] in HC.
           replace (Z.of_nat n + 0 + Z.of_nat (q - n)) with (Z.of_nat q) in HC by lia. rewrite HC by lia. apply GX; lia.
    + congruence.
    + rewrite EM, HMe, SB. reflexivity.
Qed.

(** A stream without batch dimension. *)
Record holds1 (c : nat) (f : dname) (x : @stensor V) (s : single (list V)) : Prop := mkHolds1 {
  h1_data : holds_columns c (tn x) (sd s);
  h1_names : names x = [f; Some "L"%string];
  h1_meta : smeta x = sm s
}.

Lemma cat_single_ok c f bt cols (x : @stensor V) u : holds_columns c bt cols -> holds1 c f x u ->
  exists y, cat_buffer bt x = Ok y /\ holds1 c f y (cat_single (u, Some cols)).
Proof.
  intros HB [HX HN HMe]. pose proof (proj1 HB) as SB. pose proof (proj1 HX) as SX.
  destruct (cat_buffer_ok 1 bt x) as (y & E & EN & (HS & HC) & EM).
  - now rewrite HN.
  - unfold ndim. now rewrite SX.
  - now rewrite HN.
  - exists [Z.of_nat c], (Z.of_nat (length cols)), (Z.of_nat (length (sd u))), []. rewrite SB, SX. repeat split; lia.
  - exists y. split; [exact E|]. unfold cat_single. cbn [fst snd]. constructor; cbn [sd sm].
    + apply (columns_get A) in HB as (_ & ZB & GB). apply (columns_get A) in HX as (_ & ZX & GX).
      apply (columns_get A). split; [|split].
      * rewrite HS, SB. cbn [firstn skipn map nth app]. rewrite SB, SX, app_length. unfold zsum. cbn [fold_right nth]. repeat f_equal. lia.
      * apply Forall_app. auto.
      * intros q j Hq Hj. rewrite app_length in Hq. unfold getc.
        destruct (Nat.ltb_spec q (length cols)) as [Hlt|Hge].
        -- rewrite app_nth1 by lia. specialize (HC 0%nat bt [Z.of_nat j] (Z.of_nat q) [] eq_refl eq_refl).
           cbn [firstn map app] in HC. unfold zsum in HC. cbn [fold_right] in HC. rewrite Z.add_0_l in HC. rewrite HC by (rewrite SB; cbn [nth]; lia). apply GB; lia.
        -- rewrite app_nth2 by lia. specialize (HC 1%nat (tn x) [Z.of_nat j] (Z.of_nat (q - length cols)) [] eq_refl eq_refl).
           cbn [firstn map app] in HC. unfold zsum in HC. cbn [fold_right] in HC. rewrite SB, SX in HC. cbn [nth] in HC.
           replace (Z.of_nat (length cols) + 0 + Z.of_nat (q - length cols)) with (Z.of_nat q) in HC by lia. rewrite HC by lia. apply GX; lia.
    + congruence.
    + rewrite EM, HMe, SB. reflexivity.
Qed.

(* ---- buffers of equal length *)

Lemma last_sizes c (st : tbuffers V) (st' : buffers (list V)) (is : list string) : same_buffers c st st' ->
  mapM last_size (map st is) = Ok (map buffer_len (map st' is)).
Proof.
  intros H. unfold mapM. induction is as [|i is IH]; [reflexivity|]. cbn [map seqM].
  assert (E : @last_size V (st i) = Ok (buffer_len (st' i))).
  { specialize (H i). destruct (st i) as [t|], (st' i) as [cols|]; try contradiction; [|reflexivity].
    unfold last_size. destruct H as (S1 & _). unfold ndim, size. rewrite S1. reflexivity. }
  rewrite E, IH. reflexivity.
Qed.

Lemma present_ok c (st : tbuffers V) (st' : buffers (list V)) (is : list string) : same_buffers c st st' ->
  agree (fun l l' => Forall2 (holds_columns c) l l' /\ length l' = length is) (all_present (map st is)) (stack_buffers (map st' is)).
Proof.
  intros H. unfold stack_buffers, all_some. induction is as [|i is IH]; [cbn; auto|]. cbn [map all_present fold_right].
  specialize (H i). destruct (st i) as [t|], (st' i) as [cols|]; try contradiction; [|reflexivity].
  destruct (fold_right _ _ _) as [l'|], (all_present (map st is)) as [l|e]; cbn in IH |- *; try contradiction; auto.
  destruct IH as (I1 & I2). split; [constructor; auto|lia].
Qed.

Lemma stack_ok c n l l' : l <> [] -> Forall2 (holds_columns (V := V) c) l l' -> Forall (fun cols => length cols = n) l' ->
  exists t, torch_stack l = Ok t /\ holds_data c n t l'.
Proof.
  intros HN HF HL. destruct l as [|t0 l]; [congruence|]. destruct l' as [|c0 l']; [inversion HF|].
  assert (HS : forall t, In t (t0 :: l) -> shp t = [Z.of_nat c; Z.of_nat n]).
  { clear HN. intros t Ht. induction HF as [|u v ls ls' H HF IH]; [destruct Ht|]. inversion HL; subst.
    destruct Ht as [<-|Ht]; [apply H|auto]. }
  unfold torch_stack. replace (forallb _ (t0 :: l)) with true.
  2:{ symmetry. apply forallb_forall. intros t Ht. rewrite (HS t Ht), (HS t0 (or_introl eq_refl)). cbn. rewrite !Z.eqb_refl. reflexivity. }
  eexists. split; [reflexivity|]. apply (holds_get A).
  assert (LL : length (t0 :: l) = length (c0 :: l')) by (clear -HF; induction HF; cbn; auto).
  set (L := t0 :: l) in *. set (L' := c0 :: l') in *.
  split; [|split].
  - cbn [shp]. rewrite (HS t0) by now left. unfold zlen. rewrite LL. reflexivity.
  - unfold sized. clear -HF HL. induction HF as [|u v ls ls' H HF IH]; constructor; inversion HL; subst; auto. split; auto. apply H.
  - intros i q j Hi Hq Hj. cbn [at_]. rewrite Nat2Z.id.
    destruct (nth_error L i) as [t|] eqn:Et; [|apply nth_error_None in Et; lia].
    rewrite (nth_error_nth _ _ _ Et).
    destruct (Forall2_nth_error _ _ _ HF _ _ Et) as (cols & Ec & HC).
    unfold get. rewrite (nth_error_nth _ _ _ Ec). rewrite Forall_forall in HL. pose proof (HL _ (nth_error_In _ _ Ec)) as HLc.
    apply (columns_get A) in HC as (_ & _ & G). apply G; lia.
Qed.

(* ---- buffers of different lengths *)

Definition sing (h : bool) (u : row * list (list V)) : single (list V) := mkSingle (snd u) (of_rows h [fst u]).
Definition good (u : row * list (list V)) : Prop := rlen (fst u) = zlen (snd u).

Definition unpadded (q : list (list V) * row) : row * list (list V) := (unpad_row (snd q), firstn (Z.to_nat (rlen (snd q))) (fst q)).

Lemma narrow_ok (row : list (list V)) h r w : length row = w -> 0 <= rlen r <= Z.of_nat w ->
  narrow_single (mkSingle row (of_rows h [r])) 0 (rlen r) = Ok (sing h (unpadded (row, r))).
Proof.
  intros HL Hr. unfold narrow_single. cbn [sd sm]. unfold zlen. rewrite HL. change (0 <? 0) with false. cbn [orb].
  replace (Z.of_nat w <? 0) with false by lia. replace (rlen r <? 0) with false by lia. replace (Z.of_nat w <? 0 + rlen r) with false by lia.
  cbn [orb]. rewrite unpad_one_meta by lia. reflexivity.
Qed.

Lemma unpad_rows_ok w h : forall (rows : list (list (list V))) rs, length rs = length rows -> Forall (fun r => length r = w) rows ->
  Forall (fun r => 0 <= rlen r <= Z.of_nat w) rs ->
  mapM (fun s => do n <- the_length (sm s); narrow_single s 0 n) (map (fun p => mkSingle (fst p) (snd p)) (zip rows (map (fun r => of_rows h [r]) rs)))
  = Ok (map (fun q => sing h (unpadded q)) (zip rows rs)).
Proof.
  unfold mapM. induction rows as [|r0 rows IH]; intros [|r rs] HL H1 H2; try discriminate; [reflexivity|].
  inversion H1; subst. inversion H2; subst. cbn [map zip seqM sm fst snd]. 
  cbn [the_length of_rows lens map bind]. rewrite (narrow_ok _ _ _ (length r0)) by auto. cbn [bind].
  rewrite IH by auto. reflexivity.
Qed.

Lemma unpad_cols b h rs : bm b = of_rows h rs -> length rs = length (bd b) -> Forall (fun r => length r = bw b) (bd b) ->
  Forall (fun r => 0 <= rlen r <= Z.of_nat (bw b)) rs ->
  unpad_sequence b = Ok (map (sing h) (map unpadded (zip (bd b) rs))).
Proof.
  intros EM HL H1 H2. unfold unpad_sequence, unbind_rows. rewrite EM, unbind_batch_rows. cbn [bind].
  rewrite map_length, HL, Nat.eqb_refl. cbn [bind]. rewrite (unpad_rows_ok (bw b)); auto. now rewrite map_map.
Qed.

Lemma zip_some {X Y} (a : list X) : forall (b : list Y) i u v, nth_error a i = Some u -> nth_error b i = Some v -> nth_error (zip a b) i = Some (u, v).
Proof.
  induction a as [|u0 a IH]; intros [|v0 b] [|i] u v Hu Hv; try discriminate; cbn in *; [congruence|]. now apply IH.
Qed.

Lemma forall2_index {X Y} (P : X -> Y -> Prop) : forall l l', length l = length l' ->
  (forall i a b, nth_error l i = Some a -> nth_error l' i = Some b -> P a b) -> Forall2 P l l'.
Proof.
  induction l as [|a l IH]; intros [|b l'] HL H; try discriminate; constructor.
  - apply (H 0%nat); reflexivity.
  - apply IH; [now inversion HL|]. intros i u v Hu Hv. apply (H (S i)); auto.
Qed.

Lemma distinct3 f : channel_name f -> names_distinct [Some "B"%string; f; Some "L"%string].
Proof.
  intros (F1 & F2) i j n Hi Hj.
  destruct i as [|[|[|[|i]]]], j as [|[|[|[|j]]]]; cbn in Hi, Hj; try discriminate; try reflexivity;
    try (inversion Hi; inversion Hj; subst; congruence).
Qed.

Lemma unpad_ok c f (x : @stensor V) b h rs : channel_name f -> holds c f x b -> bm b = of_rows h rs -> length rs = length (bd b) ->
  Forall (fun r => 0 <= rlen r <= Z.of_nat (bw b)) rs ->
  exists ys, unpad_sequence_t x = Ok ys /\ Forall2 (holds1 c f) ys (map (sing h) (map unpadded (zip (bd b) rs))).
Proof.
  intros Hf [HX HN HMe] EM HL HR. pose proof (proj1 HX) as SX.
  assert (HO : stream_ok x 0 2 h rs (Z.of_nat (bw b))).
  { constructor.
    - now rewrite HN, SX.
    - rewrite HN. now apply distinct3.
    - rewrite SX. repeat constructor; lia.
    - now rewrite HN.
    - now rewrite HN.
    - rewrite SX. cbn. unfold zlen. now rewrite HL.
    - now rewrite SX.
    - congruence.
    - unfold nonneg. eapply Forall_impl; [|exact HR]. cbn. lia.
    - eapply Forall_impl; [|exact HR]. cbn. lia. }
  destruct (unpad_tensor _ _ _ _ _ _ HO) as (ys & E & LY & HY). exists ys. split; [exact E|].
  apply (holds_get A) in HX as (_ & ZX & GX).
  assert (LZ : length (zip (bd b) rs) = length (bd b)) by (apply length_zip; auto).
  apply forall2_index; [rewrite !map_length; lia|]. intros i y u Hy Hu.
  assert (Hi : (i < length ys)%nat) by (apply nth_error_Some; congruence).
  destruct (nth_error rs i) as [r|] eqn:Er; [|apply nth_error_None in Er; lia].
  destruct (nth_error (bd b) i) as [row|] eqn:Eb; [|apply nth_error_None in Eb; lia].
  rewrite map_map in Hu. rewrite (map_nth_error _ _ _ (zip_some _ _ _ _ _ Eb Er)) in Hu. injection Hu as <-.
  destruct (HY i r y Er Hy) as (Y1 & (Y2 & Y3) & Y4). rewrite SX in Y1, Y2, Y3. cbn [length] in Y1, Y2, Y3.
  change (unpad_sel 3 0 2 (Z.of_nat i) (rlen r)) with [Drop (Z.of_nat i); Full; Keep (positions (rlen r))] in Y1, Y2, Y3.
  rewrite HN in Y1. cbn [kept kept_sizes source] in Y1, Y2, Y3.
  rewrite Forall_forall in HR. pose proof (HR _ (nth_error_In _ _ Er)) as Hr. cbv beta in Hr.
  rewrite positions_zlen in Y2 by lia.
  unfold sized in ZX. rewrite Forall_forall in ZX. destruct (ZX _ (nth_error_In _ _ Eb)) as (Z1 & Z2).
  constructor; cbn [sing unpadded fst snd sd sm].
  - apply (columns_get A). assert (LF : length (firstn (Z.to_nat (rlen r)) row) = Z.to_nat (rlen r)) by (rewrite firstn_length; lia).
    split; [|split].
    + rewrite Y2, LF. repeat f_equal. lia.
    + rewrite Forall_forall in *. intros col Hc. apply Z2. rewrite <- (firstn_skipn (Z.to_nat (rlen r)) row). apply in_or_app. now left.
    + intros q j Hq Hj. rewrite LF in Hq. rewrite Y3.
      * rewrite positions_nth by lia. rewrite GX by (try lia; apply nth_error_Some; congruence).
        unfold get, getc. rewrite (nth_error_nth _ _ _ Eb). now rewrite nth_firstn' by lia.
      * rewrite Y2. repeat constructor; lia.
  - exact Y1.
  - exact Y4.
Qed.

Lemma good_unpadded b rs : Forall (fun r => length r = bw b) (bd (V := list V) b) -> Forall (fun r => 0 <= rlen r <= Z.of_nat (bw b)) rs ->
  Forall good (map unpadded (zip (bd b) rs)).
Proof.
  intros H1 H2. rewrite Forall_forall in *. intros u Hu. apply in_map_iff in Hu as ((row, r) & <- & Hin).
  apply In_zip in Hin as (I1 & I2). unfold good, unpadded, unpad_row. cbn [fst snd rlen].
  pose proof (H1 _ I1). pose proof (H2 _ I2). unfold zlen. rewrite firstn_length. lia.
Qed.

Lemma append_ok c f h (st : tbuffers V) (st' : buffers (list V)) : same_buffers c st st' ->
  forall us ys is, Forall2 (holds1 c f) ys (map (sing h) us) -> Forall good us -> length is = length us ->
  exists zs us', mapM (fun q => match snd q with None => Ok (fst q) | Some b => cat_buffer b (fst q) end) (zip ys (map st is)) = Ok zs /\
    map cat_single (zip (map (sing h) us) (map st' is)) = map (sing h) us' /\
    Forall2 (holds1 c f) zs (map (sing h) us') /\ Forall good us' /\ length us' = length us.
Proof.
  intros HB. unfold mapM. induction us as [|u us IH]; intros ys is HF HG HL; destruct is as [|i is]; try discriminate;
    cbn [map] in HF; inversion HF as [|y u0 ys0 l0 HY HF']; subst.
  - exists [], []. cbn. auto.
  - inversion HG as [|? ? G1 G2]; subst. destruct (IH ys0 is HF' G2 ltac:(now inversion HL)) as (zs & us' & E1 & E2 & E3 & E4 & E5).
    cbn [map zip seqM fst snd]. rewrite E1, E2. specialize (HB i).
    destruct (st i) as [t|], (st' i) as [cols|]; try contradiction.
    + destruct (cat_single_ok c f t cols y (sing h u) HB HY) as (z & Ez & Hz). rewrite Ez. cbn [bind].
      exists (z :: zs), ((mkRow (rid (fst u)) (rsos (fst u)) (reos (fst u)) (rlen (fst u) + zlen cols) (rch (fst u)), cols ++ snd u) :: us').
      assert (ES : cat_single (sing h u, Some cols) = sing h (mkRow (rid (fst u)) (rsos (fst u)) (reos (fst u)) (rlen (fst u) + zlen cols) (rch (fst u)), cols ++ snd u)).
      { unfold cat_single, sing. cbn [fst snd sd sm]. destruct h; reflexivity. }
      rewrite ES in Hz |- *. split; [reflexivity|]. split; [reflexivity|]. split; [cbn [map]; constructor; auto|]. split; [|cbn; lia].
      constructor; auto. unfold good in *. cbn [fst snd rlen]. unfold zlen in *. rewrite app_length. lia.
    + cbn [bind]. exists (y :: zs), (u :: us'). cbn [cat_single fst snd map]. split; [reflexivity|]. split; [reflexivity|].
      split; [constructor; auto|]. split; [constructor; auto|cbn; lia].
Qed.

Lemma distinct2 f : channel_name f -> names_distinct [f; Some "L"%string].
Proof.
  intros (F1 & F2) i j n Hi Hj.
  destruct i as [|[|[|i]]], j as [|[|[|j]]]; cbn in Hi, Hj; try discriminate; try reflexivity;
    try (inversion Hi; inversion Hj; subst; congruence).
Qed.

Lemma cat_sings h us : us <> [] -> cat_batch (map sm (map (sing h) us)) = Ok (of_rows h (map fst us)).
Proof.
  intros Hne. pose proof (cat_batch_pieces h (map (fun u : row * list (list V) => [fst u]) us)) as H. rewrite !map_map in *.
  cbn [sing sm]. rewrite H by (destruct us; [congruence|discriminate]).
  f_equal. f_equal. clear. induction us; cbn; auto. now rewrite IHus.
Qed.

Lemma pad_cols z h us : us <> [] -> Forall good us ->
  pad_stream_tensor z (map (sing h) us) =
    Ok (let w := max_nat (map (@length (list V)) (map snd us)) in mkBatch w (map (pad_to z w) (map snd us)) (of_rows false (map fst us))).
Proof.
  intros Hne HG. unfold pad_stream_tensor. rewrite cat_sings by exact Hne. cbn [bind]. unfold pad_chunks.
  change (existsb (String.eqb "B") ["F"; "L"]%string) with false. change (existsb (String.eqb "L") ["F"; "L"]%string) with true. cbn [negb].
  assert (ED : map sd (map (sing h) us) = map snd us) by (rewrite map_map; reflexivity). rewrite ED.
  unfold torch_pad_sequence. destruct us as [|u0 us0] eqn:Eu; [congruence|]. rewrite <- Eu in *.
  replace (match map snd us with [] => _ | _ :: _ => _ end)
    with (Ok (max_nat (map (@length (list V)) (map snd us)), map (pad_to z (max_nat (map (@length (list V)) (map snd us)))) (map snd us)))
    by (rewrite Eu; reflexivity).
  cbn [bind ids sos eos of_rows]. rewrite (proj1 (make_meta_iff _ _ _ _ _)) by (rewrite !map_length; auto). cbn [bind].
  f_equal. cbv zeta. f_equal. unfold of_rows. f_equal. rewrite !map_map. apply map_ext_in. intros u Hin.
  rewrite Forall_forall in HG. symmetry. apply (HG u Hin).
Qed.

Lemma max_nat_ge l n : In n l -> (n <= max_nat l)%nat.
Proof. unfold max_nat. induction l as [|a l IH]; cbn; intros []; [lia|]. specialize (IH H). lia. Qed.

Lemma max_nat_in l : l <> [] -> In (max_nat l) l.
Proof.
  induction l as [|a l IH]; [congruence|]. intros _. change (max_nat (a :: l)) with (Nat.max a (max_nat l)). destruct l as [|b l].
  - cbn. left. lia.
  - destruct (Nat.max_spec a (max_nat (b :: l))) as [(_ & ->)|(_ & ->)]; [right; apply IH; discriminate|now left].
Qed.

Lemma pad_ok c f h us ys : channel_name f -> us <> [] -> Forall good us -> Forall2 (holds1 c f) ys (map (sing h) us) ->
  exists y y', pad_stream_tensor_t (zero A) ys false = Ok y /\ permute y [1; 2; 0] = Ok y' /\
    holds c f y' (let w := max_nat (map (@length (list V)) (map snd us)) in
                  mkBatch w (map (pad_to (repeat (zero A) c) w) (map snd us)) (of_rows false (map fst us))).
Proof.
  intros Hf Hne HG HF. destruct us as [|u0 us]; [congruence|]. cbn [map] in HF. inversion HF as [|y0 s0 ys0 l0 HY HF']; subst.
  set (US := u0 :: us) in *.
  assert (HI : forall i y, nth_error (y0 :: ys0) i = Some y -> exists u, nth_error US i = Some u /\ holds1 c f y (sing h u)).
  { intros i y Hy. destruct (Forall2_nth_error _ _ _ HF _ _ Hy) as (v & Ev & Hv).
    change (sing h u0 :: map (sing h) us) with (map (sing h) US) in Ev. rewrite nth_error_map in Ev. destruct (nth_error US i) as [u|]; [|discriminate].
    cbn in Ev. injection Ev as <-. eauto. }
  assert (LY : length (y0 :: ys0) = length US).
  { clear -HF. change (sing h u0 :: map (sing h) us) with (map (sing h) US) in HF. rewrite <- (map_length (sing h) US). induction HF; cbn; auto. }
  set (YS := y0 :: ys0) in *.
  assert (HS : forall y, In y YS -> exists n, shp (tn y) = [Z.of_nat c; n] /\ 0 <= n).
  { intros y Hy. apply In_nth_error in Hy as (i & Hi). destruct (HI _ _ Hi) as (u & _ & [(D & _) _ _]). exists (Z.of_nat (length (sd (sing h u)))). split; [exact D|lia]. }
  destruct (HS y0 (or_introl eq_refl)) as (n0 & S0 & Hn0).
  assert (HR : pad_ready [f] [] (tn y0) (map tn ys0) (map fst US)).
  { split; [now apply distinct2|]. split; [cbn; intros [E|[]]; now apply (proj1 Hf)|]. split; [now rewrite S0|].
    change (tn y0 :: map tn ys0) with (map tn YS). split; [|split].
    - rewrite Forall_map, Forall_forall. intros y Hy. destruct (HS y Hy) as (n & Sy & _). unfold alike_but. rewrite Sy, S0. split; [reflexivity|].
      intros [|[|d]] Hd; cbn; auto. cbn in Hd. congruence.
    - rewrite Forall_map, Forall_forall. intros y Hy. destruct (HS y Hy) as (n & Sy & Hn). rewrite Sy. repeat constructor; lia.
    - apply forall2_index; [rewrite !map_length; auto|]. intros i r t Hr Ht. rewrite nth_error_map in Hr, Ht.
      destruct (nth_error YS i) as [y|] eqn:Ey; [|discriminate]. cbn in Ht. injection Ht as <-.
      destruct (HI _ _ Ey) as (u & Eu & [(D & _) _ _]). rewrite Eu in Hr. cbn in Hr. injection Hr as <-.
      rewrite D. cbn [length nth sing sd]. rewrite Forall_forall in HG. apply (HG u). eapply nth_error_In; eauto. }
  destruct (HI 0%nat y0 eq_refl) as (u & Eu & [D0 N0 M0]).
  unfold YS. rewrite (pad_stream_general (zero A) false [f] [] y0 ys0 h (map fst US)).
  2:{ exact N0. }
  2:{ fold YS. apply forall2_index; [rewrite map_length; auto|]. intros i r y Hr Hy. rewrite nth_error_map in Hr.
      destruct (HI _ _ Hy) as (v & Ev & [_ _ Mv]). rewrite Ev in Hr. cbn in Hr. injection Hr as <-. exact Mv. }
  destruct (pad_ready_ok (zero A) false [f] [] (tn y0) (map tn ys0) (map fst US) HR) as (y & T & E & HP & HO).
  change (tn y0 :: map tn ys0) with (map tn YS) in *. change (map tn (y0 :: ys0)) with (map tn YS). rewrite E. exists y.
  destruct HP as [P1 P2 (m & s1 & n & s2 & Es & L1 & L2 & Ey & Hgr) P4 P5].
  destruct s1 as [|q1 [|q2 s1]]; try discriminate. destruct s2 as [|q2 s2]; try discriminate.
  rewrite S0 in Es. cbn [app] in Es. injection Es as <- ->. cbn [lead app length] in P1, P2, P4, P5, Ey, Hgr.
  destruct (permute_ok y [1; 2; 0] [1; 2; 0]%nat) as (y' & EP & PN & PM & (PS & PD)).
  - rewrite P1. unfold ndim. now rewrite Ey.
  - rewrite P1. intros i j k Hi Hj. destruct Hf as (F1 & F2).
    destruct i as [|[|[|[|i]]]], j as [|[|[|[|j]]]]; cbn in Hi, Hj; try discriminate; try reflexivity;
      try (inversion Hi; inversion Hj; subst; congruence).
  - unfold ndim. rewrite Ey. unfold denotes. cbn [length]. repeat constructor; lia.
  - unfold ndim. rewrite Ey. cbn [length seq]. change [1; 2; 0]%nat with ([1; 2] ++ [0])%nat. change [0; 1; 2]%nat with ([0] ++ [1; 2])%nat. apply Permutation.Permutation_app_comm.
  - exists y'. split; [reflexivity|]. split; [exact EP|]. cbv zeta. set (w := max_nat (map (@length (list V)) (map snd US))).
    assert (Ew : m = Z.of_nat w).
    { destruct Hgr as (G1 & G2). rewrite map_map in G1, G2.
      assert (HW : forall y, In y YS -> exists v, In v US /\ nth 1 (shp (tn y)) 0 = Z.of_nat (length (snd v))).
      { intros z Hz. apply In_nth_error in Hz as (i & Hi). destruct (HI _ _ Hi) as (v & Ev & [(D & _) _ _]). exists v.
        split; [eapply nth_error_In; eauto|]. now rewrite D. }
      apply Z.le_antisymm.
      - apply in_map_iff in G1 as (z & <- & Hz). destruct (HW z Hz) as (v & Hv & ->). apply inj_le. apply max_nat_ge. apply in_map, in_map. exact Hv.
      - assert (In w (map (@length (list V)) (map snd US))) by (apply max_nat_in; discriminate).
        apply in_map_iff in H as (cols & Ec & Hc). apply in_map_iff in Hc as (v & <- & Hv).
        apply In_nth_error in Hv as (i & Hi).
        destruct (nth_error YS i) as [z|] eqn:Ez; [|apply nth_error_None in Ez; assert (i < length US)%nat by (apply nth_error_Some; congruence); lia].
        destruct (HI _ _ Ez) as (v' & Ev' & [(D & _) _ _]). rewrite Hi in Ev'. injection Ev' as <-.
        rewrite Forall_map, Forall_forall in G2. specialize (G2 z (nth_error_In _ _ Ez)). cbv beta in G2. rewrite D in G2. cbn [nth sing sd] in G2. lia. }
    constructor; cbn [bw bd bm].
    + apply (holds_get A). rewrite !map_length. split; [|split].
      * rewrite PS, Ey. cbn [map nth]. unfold zlen. rewrite map_length, LY. repeat f_equal. exact Ew.
      * unfold sized. rewrite Forall_map, Forall_forall. intros cols Hc. apply in_map_iff in Hc as (v & <- & Hv).
        unfold pad_to. rewrite app_length, repeat_length. split.
        -- assert (length (snd v) <= w)%nat; [|lia]. apply max_nat_ge. apply in_map, in_map. exact Hv.
        -- apply Forall_app. split; [|apply Forall_forall; intros col Hcol; apply repeat_spec in Hcol; subst; apply repeat_length].
           apply In_nth_error in Hv as (i & Hi).
           destruct (nth_error YS i) as [z|] eqn:Ez; [|apply nth_error_None in Ez; assert (i < length US)%nat by (apply nth_error_Some; congruence); lia].
           destruct (HI _ _ Ez) as (v' & Ev' & [(_ & D & _) _ _]). rewrite Hi in Ev'. injection Ev' as <-. exact D.
      * intros i q j Hi Hq Hj.
        destruct (nth_error YS i) as [z|] eqn:Ez; [|apply nth_error_None in Ez; lia].
        destruct (HI _ _ Ez) as (v & Ev & [D _ _]). apply (columns_get A) in D as (Ds & Dc & Dg). cbn [sing sd] in Ds, Dc, Dg.
        unfold get. rewrite map_map. rewrite (nth_map_lt _ US i [] v) by exact Hi. rewrite (nth_error_nth _ _ _ Ev).
        rewrite (PD _ [Z.of_nat q; Z.of_nat i; Z.of_nat j]); [|reflexivity|reflexivity|intros [|[|[|k]]] Hk; cbn in Hk |- *; try reflexivity; lia].
        unfold pad_to. destruct (Nat.ltb_spec q (length (snd v))) as [Hlt|Hge].
        -- rewrite app_nth1 by exact Hlt. transitivity (at_ (tn z) [Z.of_nat j; Z.of_nat q]); [|now apply Dg]. apply (P4 i (tn z) [Z.of_nat j] (Z.of_nat q) []).
           ++ rewrite nth_error_map, Ez. reflexivity.
           ++ reflexivity.
           ++ reflexivity.
           ++ apply reads_at_self. rewrite Ds. repeat constructor; lia.
           ++ rewrite Ds. cbn [nth]. lia.
        -- rewrite app_nth2 by exact Hge. 
           transitivity (zero A).
           ++ apply (P5 i (tn z) [Z.of_nat j] (Z.of_nat q) []); [now rewrite nth_error_map, Ez|reflexivity|reflexivity|rewrite Ds; cbn [nth]; lia].
           ++ destruct (nth_in_or_default (q - length (snd v)) (repeat (repeat (zero A) c) (w - length (snd v))) []) as [Hin| ->].
              ** apply repeat_spec in Hin. rewrite Hin. now rewrite nth_repeat_zero.
              ** now rewrite nth_nothing.
    + rewrite PN, P1. reflexivity.
    + rewrite PM, P2. unfold of_rows. f_equal. rewrite !map_map. apply (Forall2_map_eq _ _ (fun y u => nth 1 (shp (tn y)) 0 = rlen (fst u))); [auto|].
      apply forall2_index; [exact LY|]. intros i z v Hz Hv. destruct (HI _ _ Hz) as (v' & Ev' & [(D & _) _ _]). rewrite Hv in Ev'. injection Ev' as <-.
      rewrite D. cbn [nth sing sd]. rewrite Forall_forall in HG. symmetry. apply (HG v). eapply nth_error_In; eauto.
Qed.

(* ---- the hooks, a call and a run *)

Context (k : conv_args V) (cin cout cg ks s d p : nat) (HM : module_ok k cin cout cg ks s d p).
Notation C := (columns_cfg A k cin cout cg ks s d p).

Lemma described_fit (b : batch (list V)) : described b -> fields_fit (bm b) (length (bd b)).
Proof. intros (h & rs & E & L & _). rewrite E. unfold fields_fit, of_rows. cbn [ids sos eos lens]. rewrite !map_length. auto. Qed.

Lemma with_lens_rows h rs : forall ls, length ls = length rs ->
  exists rs', with_lens (of_rows h rs) ls = of_rows h rs' /\ length rs' = length rs /\ map rlen rs' = ls.
Proof.
  induction rs as [|r rs IH]; intros [|n ls] H; try discriminate; [exists []; auto|].
  destruct (IH ls ltac:(now inversion H)) as (rs' & E1 & E2 & E3). exists (mkRow (rid r) (rsos r) (reos r) n (rch r) :: rs').
  unfold with_lens, of_rows in *. cbn [ids sos eos lens chs map rid rsos reos rlen rch length] in *. injection E1 as F1 F2 F3 F4 F5.
  split; [|split; [congruence|congruence]]. rewrite F1, F2, F3, E3. f_equal. destruct h; [|reflexivity]. injection F5 as F5. now rewrite F5.
Qed.

Lemma fit_of_rows h rs n : length rs = n -> fields_fit (of_rows h rs) n.
Proof. intros <-. unfold fields_fit, of_rows. cbn [ids sos eos lens]. rewrite !map_length. auto. Qed.

Lemma pre_hook_ok f (st : tbuffers V) (st' : buffers (list V)) x b : channel_name f -> same_buffers cin st st' -> holds cin f x b -> described b ->
  agree (fun y b' => holds cin f y b' /\ described b')
    (pre_hook_t A (width_of (Z.of_nat ks) (Z.of_nat d)) st x) (pre_hook C st' b).
Proof.
  intros Hf HB HX HDe. pose proof (described_fit b HDe) as HF. unfold pre_hook_t, pre_hook.
  change (kernel_width C) with (width_of (Z.of_nat ks) (Z.of_nat d)). rewrite (h_meta _ _ _ _ HX).
  destruct ((1 <? width_of (Z.of_nat ks) (Z.of_nat d)) && negb (all_starting (bm b))); [|cbn; auto].
  rewrite (last_sizes cin st st') by exact HB. cbn [bind]. unfold buffer_data.
  destruct HF as (F1 & F2 & F3 & F4).
  destruct (map buffer_len (map st' (ids (bm b)))) as [|r bl] eqn:Ebl; [reflexivity|]. rewrite <- Ebl.
  destruct (forallb (fun n => n =? r) (map buffer_len (map st' (ids (bm b))))) eqn:Eq.
  - pose proof (present_ok cin st st' (ids (bm b)) HB) as HP.
    assert (HW : forall ls, stack_buffers (map st' (ids (bm b))) = Ok ls -> Forall (fun cols => length cols = Z.to_nat r) ls).
    { clear -Eq. unfold stack_buffers, all_some. induction (ids (bm b)) as [|i is IH]; intros ls; cbn [map fold_right].
      - intros E. injection E as <-. constructor.
      - cbn [map forallb] in Eq. apply andb_true_iff in Eq as (E1 & E2). specialize (IH E2).
        destruct (st' i) as [cols|]; [|discriminate]. destruct (fold_right _ _ _) as [l'|]; [|discriminate].
        intros E. injection E as <-. constructor; [|apply IH; reflexivity]. cbn in E1. unfold zlen in E1. lia. }
    apply agree_bind with (R := fun l l' => Forall2 (holds_columns cin) l l' /\ length l' = length (ids (bm b)) /\ Forall (fun cols => length cols = Z.to_nat r) l').
    { destruct (all_present (map st (ids (bm b)))) as [l|e], (stack_buffers (map st' (ids (bm b)))) as [l'|e']; cbn in HP |- *; auto.
      destruct HP as (HP & HQ). auto. }
    intros l l' (H1 & H2 & H3).
    assert (Hl : l <> []).
    { intros ->. inversion H1; subst. rewrite F1 in H2. cbn in H2. destruct (ids (bm b)); [discriminate|]. cbn in F1. lia. }
    destruct (stack_ok cin (Z.to_nat r) l l' Hl H1 H3) as (t & Et & Ht). rewrite Et. cbn [bind].
    destruct (cat_stack_ok cin f (Z.to_nat r) t l' x b Ht HX ltac:(congruence)) as (y & Ey & Hy). rewrite Ey.
    unfold cat_front. rewrite (proj2 (Nat.eqb_eq (length l') (length (bd b)))) by congruence. cbn [agree]. split; [exact Hy|].
    destruct HDe as (h & rs & EM & LR & HR). rewrite EM. destruct (with_lens_rows h rs (map (fun l => l + Z.of_nat (Z.to_nat r)) (lens (of_rows h rs)))) as (rs' & E1 & E2 & E3).
    { cbn [lens of_rows]. now rewrite !map_length. }
    exists h, rs'. cbn [bm bd bw]. split; [exact E1|]. split; [rewrite E2, map_length, length_zip; lia|].
    apply Forall_map with (f := rlen) (P := fun z => 0 <= z <= Z.of_nat (Z.to_nat r + bw b)). rewrite E3. cbn [lens of_rows]. rewrite !Forall_map.
    eapply Forall_impl; [|exact HR]. cbn. intros r0 Hr0. lia.
  - destruct HDe as (h & rs & EM & LR & HR).
    assert (HW : Forall (fun r => length r = bw b) (bd b)).
    { destruct HX as [(_ & ZX & _) _ _]. unfold sized in ZX. eapply Forall_impl; [|exact ZX]. cbn. tauto. }
    rewrite (unpad_cols b h rs) by auto. cbn [bind].
    destruct (unpad_ok cin f x b h rs Hf HX EM LR HR) as (ys & -> & HY). cbn [bind].
    assert (LU : length (map unpadded (zip (bd b) rs)) = length (bd b)) by (rewrite map_length, length_zip; lia).
    destruct (append_ok cin f h st st' HB _ _ (ids (bm b)) HY (good_unpadded b rs HW HR) ltac:(congruence)) as (zs & us' & E1 & E2 & E3 & E4 & E5).
    rewrite E1, E2. cbn [bind].
    assert (Hu : us' <> []).
    { intros ->. cbn in E5. rewrite LU in E5. rewrite <- F1 in E5. destruct (ids (bm b)); [discriminate Ebl|discriminate E5]. }
    destruct (pad_ok cin f h us' zs Hf Hu E4 E3) as (y & y' & -> & EP & HY'). cbn [bind]. rewrite EP.
    change (zin C) with (repeat (zero A) cin). rewrite (pad_cols _ h us') by auto. cbn [agree]. split; [exact HY'|].
    cbv zeta. exists false, (map fst us'). cbn [bm bd bw]. split; [reflexivity|]. split; [now rewrite !map_length|].
    rewrite Forall_map, Forall_forall. intros u Hi. rewrite Forall_forall in E4. specialize (E4 u Hi). unfold good in E4. rewrite E4. unfold zlen.
    pose proof (max_nat_ge (map (@length (list V)) (map snd us')) (length (snd u)) ltac:(do 2 apply in_map; exact Hi)). lia.
Qed.

Lemma set_ok c (st : tbuffers V) (st' : buffers (list V)) tmp tmp' : same_new c tmp tmp' -> same_buffers c st st' ->
  same_buffers c (fold_left (fun s q i => if String.eqb i (fst q) then Some (snd q) else s i) tmp st) (fold_left set_buffer tmp' st').
Proof.
  intros H. revert st st'. induction H as [|q q' l l' (E & Hq) H IH]; intros st st' HB; [exact HB|]. cbn [fold_left]. apply IH.
  intros i. unfold set_buffer. rewrite E. destruct (String.eqb i (fst q')); [exact Hq|apply HB].
Qed.

Lemma post_hook_ok c (st : tbuffers V) (st' : buffers (list V)) m tmp tmp' : same_new c tmp tmp' -> same_buffers c st st' ->
  same_buffers c (post_hook_t st m tmp) (post_hook st' m tmp').
Proof.
  intros H HB. unfold post_hook_t, post_hook. pose proof (set_ok c st st' tmp tmp' H HB) as H1.
  cbv zeta. revert H1. generalize (fold_left (fun (s : string -> option (@tensor V)) (q : string * @tensor V) (i : string) => if String.eqb i (fst q) then Some (snd q) else s i) tmp st) (fold_left set_buffer tmp' st').
  induction (zip (ids m) (eos m)) as [|(i, e) l IH]; intros s1 s1' H1; [exact H1|]. cbn [fold_left fst snd]. apply IH.
  destruct e; [|exact H1]. intros j. unfold del_buffer. destruct (String.eqb j i); [exact I|apply H1].
Qed.

Lemma call_ok f (st : tbuffers V) (st' : buffers (list V)) x b : mask_clears A -> channel_name f -> same_buffers cin st st' -> holds cin f x b -> described b ->
  agree (fun q q' => holds cout f (fst q) (fst q') /\ same_buffers cin (snd q) (snd q')) (conv_call_t A k st x) (conv_call C st' b).
Proof.
  intros HA Hf HB HX HD. unfold conv_call_t, conv_call, module_width. rewrite (mk_weight _ _ _ _ _ _ _ _ HM), (mk_dilation _ _ _ _ _ _ _ _ HM).
  cbn [nth_error bind first_of]. eapply agree_bind; [apply (pre_hook_ok f st st' x b); auto|].
  intros y b' (H1 & H2). eapply agree_bind; [apply (conv1d_ok A k cin cout cg ks s d p HM f y b'); auto using described_fit|].
  intros (z, tmp) (b2, tmp') (H3 & H4). cbn [fst snd agree] in *. split; [exact H3|]. rewrite (h_meta _ _ _ _ H3). now apply post_hook_ok.
Qed.

Lemma run_ok f : mask_clears A -> channel_name f -> forall xs bs (st : tbuffers V) (st' : buffers (list V)),
  same_buffers cin st st' -> Forall2 (holds cin f) xs bs -> Forall described bs ->
  agree (fun q q' => Forall2 (holds cout f) (fst q) (fst q') /\ same_buffers cin (snd q) (snd q')) (conv_run_t A k st xs) (conv_run C st' bs).
Proof.
  intros HA Hf. induction xs as [|x xs IH]; intros bs st st' HB HF HD; inversion HF; subst; [cbn; auto|]. inversion HD; subst.
  cbn [conv_run_t conv_run]. eapply agree_bind; [apply (call_ok f st st'); auto|]. intros (y1, st1) (z1, st1') (H7 & H8). cbn [fst snd] in *.
  eapply agree_bind; [apply IH; eauto|]. intros (ys, st2) (zs, st2') (H9 & H10). cbn [fst snd agree] in *. auto.
Qed.

End ConvTensorHookProofs.

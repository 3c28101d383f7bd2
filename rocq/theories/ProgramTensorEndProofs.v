(** Proofs: the whole example program on tensors. *)

From Coq Require Import String List ZArith Bool Lia Compare_dec.
From Coq Require Import ZifyBool.
From Verif Require Import Py Meta MetaSpec MetaProofs Named NamedSpec Pad Conv ConvSpec ConvProofs Stack StackSpec ConvTensor ConvTensorSpec ConvTensorProofs ConvTensorRunProofs
  ConvNet ConvNetSpec ConvNetProofs Ragged RaggedProofs PadTensorProofs Collector AlignTo Program ProgramSpec ProgramTensor ProgramTensorSpec
  Pipeline ProgramTensorProofs ProgramTensorRunProofs ProgramRunProofs.
Import ListNotations.
Open Scope Z_scope.

Section Rounds.
Context {X Y : Type} (R : X -> Y -> Prop).

Definition same_data (d : list (string * list X)) (d' : list (string * list Y)) : Prop :=
  Forall2 (fun p q => fst p = fst q /\ Forall2 R (snd p) (snd q)) d d'.

Lemma remaining_same d d' : same_data d d' -> remaining_chunks d = remaining_chunks d'.
Proof.
  intros H. unfold remaining_chunks. f_equal. induction H as [|p q d d' (_ & H) F IH]; [reflexivity|]. cbn [map]. rewrite IH. f_equal.
  exact (Forall2_zlen _ _ _ H).
Qed.

Lemma one_round_same : forall d d', same_data d d' -> forall coins,
  match one_round d coins, one_round d' coins with
  | Some (b, r, cs), Some (b', r', cs') => Forall2 R b b' /\ same_data r r' /\ cs = cs'
  | None, None => True
  | _, _ => False
  end.
Proof.
  induction 1 as [|(i, l) (i', l') d d' (Hi & Hl) HF IH]; intros coins; cbn [one_round]; [repeat split; constructor|].
  cbn [fst snd] in Hi, Hl. subst i'. destruct Hl as [|x y l l' Hx Hl].
  - specialize (IH coins). destruct (one_round d coins) as [((b, r), cs)|], (one_round d' coins) as [((b', r'), cs')|]; try contradiction; [|exact I].
    destruct IH as (I1 & I2 & I3). split; [exact I1|]. split; [|exact I3]. constructor; [split; [reflexivity|constructor]|exact I2].
  - destruct coins as [|k coins]; [exact I|]. destruct k; specialize (IH coins);
      destruct (one_round d coins) as [((b, r), cs)|], (one_round d' coins) as [((b', r'), cs')|]; try contradiction; try exact I;
      destruct IH as (I1 & I2 & I3).
    + split; [constructor; assumption|]. split; [|exact I3]. constructor; [split; [reflexivity|exact Hl]|exact I2].
    + split; [exact I1|]. split; [|exact I3]. constructor; [split; [reflexivity|constructor; assumption]|exact I2].
Qed.

Lemma rounds_same : forall fuel d d' coins, same_data d d' ->
  match rounds fuel d coins, rounds fuel d' coins with
  | Some bs, Some bs' => Forall2 (Forall2 R) bs bs'
  | None, None => True
  | _, _ => False
  end.
Proof.
  induction fuel as [|fuel IH]; intros d d' coins H; cbn [rounds]; rewrite (remaining_same d d' H); destruct (0 <? remaining_chunks d'); try constructor.
  pose proof (one_round_same d d' H coins) as HO. destruct (one_round d coins) as [((b, r), cs)|], (one_round d' coins) as [((b', r'), cs')|]; try contradiction; [|exact I].
  destruct HO as (O1 & O2 & <-). specialize (IH r r' cs O2). destruct (rounds fuel r cs), (rounds fuel r' cs); try contradiction; [|exact I].
  destruct O1; [exact IH|]. constructor; [constructor; assumption|exact IH].
Qed.

End Rounds.

Section ProgramTensorEndProofs.
Context {V : Type} (A : arith V).
Notation tensor := (@tensor V).
Notation stensor := (@stensor V).
Notation F := (Some "F"%string).
Notation L := (Some "L"%string).

Lemma metas_same c (xs : list stensor) ss : Forall2 (holds_single c F) xs ss -> map smeta xs = map sm ss.
Proof. induction 1 as [|x s xs ss H HF IH]; [reflexivity|]. cbn [map]. now rewrite IH, (hs_meta _ _ _ _ H). Qed.

Lemma data_same c (xs : list stensor) ss : Forall2 (holds_single c F) xs ss -> Forall2 (holds_columns c) (map tn xs) (map sd ss).
Proof. induction 1 as [|x s xs ss H HF IH]; constructor; [apply (hs_data _ _ _ _ H)|exact IH]. Qed.

Lemma padded_chunks_agree c (xs : list stensor) ss : Forall2 (holds_single c F) xs ss ->
  agree (fun x b => holds c F x b /\ described b) (padded_chunks A xs) (pad_stream_tensor (repeat (zero A) c) ss).
Proof.
  intros HF. unfold padded_chunks, pad_stream_tensor_t, pad_stream_tensor. rewrite (metas_same c xs ss HF).
  destruct (cat_batch (map sm ss)) as [m|e] eqn:E; [|reflexivity]. cbn [bind].
  destruct HF as [|x s xs ss HX HF]; [discriminate|].
  assert (EG : py_getitem (x :: xs) 0 = Ok x) by (unfold py_getitem; cbn [Z.ltb Z.compare]; unfold zlen; reflexivity).
  rewrite EG. cbn [bind]. rewrite (hs_names _ _ _ _ HX). apply pad_chunks_agree. apply (data_same c (x :: xs) (s :: ss)). now constructor.
Qed.

Definition same_items (c : nat) (items : list (string * tensor)) (items' : list (string * list (list V))) : Prop :=
  Forall2 (fun p q => fst p = fst q /\ holds_columns c (snd p) (snd q)) items items'.

Lemma ids_same c items items' : same_items c items items' -> map fst items = map fst items'.
Proof. induction 1 as [|p q l l' (H & _) HF IH]; [reflexivity|]. cbn [map]. now rewrite IH, H. Qed.

Lemma item_data c items items' : same_items c items items' -> Forall2 (holds_columns c) (map snd items) (map snd items').
Proof. induction 1 as [|p q l l' (_ & H) HF IH]; constructor; assumption. Qed.

Lemma sizes_same c (xs : list stensor) ss : Forall2 (holds_single c F) xs ss -> mapM size_of_length xs = Ok (map (fun s => zlen (sd s)) ss).
Proof.
  unfold mapM. induction 1 as [|x s xs ss H HF IH]; [reflexivity|]. cbn [map seqM].
  assert (E : size_of_length x = Ok (zlen (sd s))).
  { unfold size_of_length. rewrite (hs_names _ _ _ _ H). change (names_index (Some LENGTH) [F; L]) with (@Ok nat 1%nat). cbn [bind].
    destruct (hs_data _ _ _ _ H) as (E & _). unfold size. now rewrite E. }
  rewrite E, IH. reflexivity.
Qed.

(** Both models of the program ask for the same random numbers, raise the same exceptions and collect the same data. *)
Theorem program_agrees c Ls qs c' z' items items' draws coins : mask_clears A -> network A c (repeat (zero A) c) Ls qs c' z' ->
  same_items c items items' ->
  match tprogram A Ls items draws coins, program (column_layers A c Ls qs) (repeat (zero A) c) items' draws coins with
  | Some r, Some r' => agree (Forall2 (holds_columns c')) r r'
  | None, None => True
  | _, _ => False
  end.
Proof.
  intros HA HN HI. unfold tprogram, program.
  assert (HP : agree (fun p ss => Forall2 (holds_single c F) (fst p) ss /\ snd p = map (fun s => zlen (sd s)) ss)
                 (do x <- padded_items A items; do xs <- unpad_sequence_t x; do ns <- mapM size_of_length xs; Ok (xs, ns))
                 (do x <- pad_full_sequence (repeat (zero A) c) (map snd items') ["F"; "L"]%string (map fst items'); unpad_sequence x)).
  { eapply agree_bind with (R := fun x b => holds c F x b /\ described b).
    - unfold padded_items, pad_full_sequence_t, pad_full_sequence. rewrite (ids_same c items items' HI).
      assert (E : repeat true (length (map snd items)) = map (fun _ : list (list V) => true) (map snd items')).
      { clear -HI. induction HI; [reflexivity|]. cbn [map length repeat]. now rewrite IHHI. }
      rewrite E. apply pad_chunks_agree. now apply item_data.
    - intros x b (HX & _). pose proof (unpad_agree A c F x b channel_F HX) as HU.
      destruct (unpad_sequence_t x) as [xs|e], (unpad_sequence b) as [ss|e']; cbn in HU; try contradiction; [|exact HU].
      cbn [bind]. rewrite (sizes_same c xs ss HU). cbn [bind agree fst snd]. split; [exact HU|reflexivity]. }
  destruct (do x <- padded_items A items; do xs <- unpad_sequence_t x; do ns <- mapM size_of_length xs; Ok (xs, ns)) as [(xs, ns)|e],
           (do x <- pad_full_sequence (repeat (zero A) c) (map snd items') ["F"; "L"]%string (map fst items'); unpad_sequence x) as [ss|e'];
    cbn [agree fst snd] in HP; try contradiction; [|exact HP].
  destruct HP as (HX & ->). destruct (all_chunks (map (fun s => zlen (sd s)) ss) draws) as [sizes|]; [|exact I].
  assert (HS : agree (Forall2 (Forall2 (holds_single c F))) (mapM (fun p => split (fst p) (SList (snd p)) 1) (zip xs sizes))
                 (mapM (fun p => split_single (fst p) (SList (snd p))) (zip ss sizes))).
  { refine (agree_mapM _ _ _ _ _ _ _ (zip_map2 _ _ _ _ HX _ _ (Forall2_refl_eq sizes))).
    intros (x, n) (s, n') (H1 & H2). cbn [fst snd] in *. subst n'. now apply split_agree. }
  destruct (mapM (fun p => split (fst p) (SList (snd p)) 1) (zip xs sizes)) as [ps|e],
           (mapM (fun p => split_single (fst p) (SList (snd p))) (zip ss sizes)) as [ps'|e']; cbn [agree] in HS; try contradiction; [|exact HS].
  assert (HD : same_data (holds_single c F) (zip (map fst items) ps) (zip (map fst items') ps')).
  { rewrite (ids_same c items items' HI). exact (zip_map2 _ _ _ _ (Forall2_refl_eq (map fst items')) _ _ HS). }
  unfold batch_loop. pose proof (rounds_same (holds_single c F) (length coins) _ _ coins HD) as HR.
  destruct (rounds (length coins) (zip (map fst items) ps) coins) as [steps|], (rounds (length coins) (zip (map fst items') ps') coins) as [steps'|]; try contradiction; [|exact I].
  eapply agree_bind; [refine (agree_mapM _ _ _ _ _ _ _ HR); apply padded_chunks_agree|].
  intros bs bs' HB. assert (HB1 : Forall2 (holds c F) bs bs' /\ Forall described bs').
  { clear -HB. induction HB as [|x b bs bs' (H1 & H2) HB IH]; [split; constructor|]. destruct IH. split; constructor; assumption. }
  destruct HB1 as (B1 & B2).
  eapply agree_bind.
  - apply (stream_loop_agree A c (repeat (zero A) c) Ls qs c' z' HA HN bs bs' B1 B2); [eapply net_fresh_ok; exact HN|].
    split; [intros i; exact I|intros i; reflexivity].
  - intros st st' (HE & _). rewrite (ids_same c items items' HI). refine (agree_mapM eq _ _ _ _ _ _ (Forall2_refl_eq _)).
    intros i ? <-. unfold tcollected, collected. specialize (HE i). destruct (tentries st i), (entries st' i); try contradiction; [|reflexivity].
    apply (hs_data _ _ _ _ HE).
Qed.

(* ---- the offline model *)

Lemma net_plain_agree c z Ls qs c' z' : network A c z Ls qs c' z' -> forall w t rows, holds_data c w t rows ->
  agree (fun t' q => holds_data c' (fst q) t' (snd q) /\ length (snd q) = length rows) (net_plain A Ls t) (plain_forward (column_layers A c Ls qs) w rows).
Proof.
  intros HN. induction HN as [c z|c n c' z' k q Ls qs HM Hs HN IH|c z n g c' z' q Ls qs Hg HN IH]; intros w t rows HD.
  - cbn. auto.
  - cbn [net_plain column_layers plain_forward]. rewrite (network_out _ _ _ _ _ _ _ _ HM).
    pose proof (int_padding_ok k c n (z_cg q) (z_ks q) (z_s q) (z_d q) (z_p q) HM) as EP. rewrite EP. cbn [bind].
    eapply agree_bind; [exact (torch_conv_ok A k c n (z_cg q) (z_ks q) (z_s q) (z_d q) (z_p q) HM w t rows (z_p q) HD)|].
    intros u (w1, rows1) (K1 & K2 & _). cbn [fst snd] in *. rewrite <- K2. apply IH. exact K1.
  - cbn [net_plain column_layers plain_forward out_channels]. rewrite <- (map_length (map g) rows). apply IH. now apply (step_tensor_ok A c).
Qed.

Lemma unsqueezed c (t : tensor) cols : holds_columns c t cols -> holds_data c (length cols) (t_unsqueeze t 0) [cols].
Proof.
  intros H. pose proof H as (H1 & H2 & H3). split; [|split].
  - unfold t_unsqueeze, insert_nth. cbn [shp firstn skipn app]. now rewrite H1.
  - constructor; [split; [reflexivity|exact H2]|constructor].
  - intros [|i] row p col j v Er Ec Ev; [|destruct i; discriminate]. injection Er as <-. unfold t_unsqueeze, remove_nth. cbn [at_ firstn skipn app]. eapply H3; eassumption.
Qed.

Lemma target_agree c z Ls qs c' z' (t : tensor) cols : network A c z Ls qs c' z' -> holds_columns c t cols ->
  agree (fun t' o => holds_data c' (length o) t' [o]) (ttarget A Ls t) (target (column_layers A c Ls qs) cols).
Proof.
  intros HN HC. unfold ttarget, target. pose proof (net_plain_agree c z Ls qs c' z' HN _ _ _ (unsqueezed c t cols HC)) as H.
  destruct (net_plain A Ls (t_unsqueeze t 0)) as [t'|e], (plain_forward (column_layers A c Ls qs) (length cols) [cols]) as [(w, rows)|e']; cbn [agree fst snd] in H; try contradiction; [|exact H].
  cbn [bind]. destruct H as (H1 & H2). destruct rows as [|r [|]]; try discriminate. cbn [agree].
  assert (length r = w) as ->; [|exact H1]. destruct H1 as (_ & HS & _). exact (proj1 (Forall_inv HS)).
Qed.

Lemma row_of_holds c (t y : tensor) o : holds_data c (length o) t [o] -> holds_columns c y o -> row_of t y.
Proof.
  intros H K. apply (holds_get A) in H. apply (columns_get A) in K. destruct H as (H1 & _ & H3), K as (K1 & _ & K3).
  exists (Z.of_nat c), (Z.of_nat (length o)). split; [exact H1|]. split; [exact K1|]. intros j p Hj Hp.
  specialize (H3 0%nat (Z.to_nat p) (Z.to_nat j)). specialize (K3 (Z.to_nat p) (Z.to_nat j)). rewrite !Z2Nat.id in H3, K3 by lia.
  change (Z.of_nat 0) with 0 in H3. rewrite H3, K3 by (cbn [length]; lia). reflexivity.
Qed.

Lemma columns_of_holds c n (t : tensor) : shp t = [Z.of_nat c; Z.of_nat n] -> holds_columns c t (columns_of c n t).
Proof.
  intros H. unfold columns_of. split; [|split].
  - now rewrite map_length, seq_length.
  - rewrite Forall_map, Forall_forall. intros p _. now rewrite map_length, seq_length.
  - intros p col j v Ec Ev.
    assert (Hp : (p < n)%nat).
    { destruct (le_lt_dec n p) as [G|G]; [|exact G]. exfalso. assert (N : nth_error (map (fun p => map (fun j => at_ t [Z.of_nat j; Z.of_nat p]) (seq 0 c)) (seq 0 n)) p = None).
      { apply nth_error_None. now rewrite map_length, seq_length. } rewrite N in Ec. discriminate. }
    rewrite nth_error_map in Ec. rewrite (nth_error_nth' _ 0%nat) in Ec by (rewrite seq_length; exact Hp). rewrite seq_nth in Ec by exact Hp. change (0 + p)%nat with p in Ec. injection Ec as <-.
    assert (Hj : (j < c)%nat).
    { destruct (le_lt_dec c j) as [G|G]; [|exact G]. exfalso. assert (N : nth_error (map (fun j => at_ t [Z.of_nat j; Z.of_nat p]) (seq 0 c)) j = None).
      { apply nth_error_None. now rewrite map_length, seq_length. } rewrite N in Ev. discriminate. }
    rewrite nth_error_map in Ev. rewrite (nth_error_nth' _ 0%nat) in Ev by (rewrite seq_length; exact Hj). rewrite seq_nth in Ev by exact Hj. injection Ev as <-. reflexivity.
Qed.

(* ---- conditions of the network *)

Lemma net_smooth c z Ls qs c' z' : network A c z Ls qs c' z' -> net_overlapping Ls qs -> Forall smooth_layer (column_layers A c Ls qs).
Proof.
  intros HN. induction HN as [c z|c n c' z' k q Ls qs HM Hs HN IH|c z n g c' z' q Ls qs Hg HN IH]; intros HO; cbn [column_layers]; [constructor| |].
  - destruct HO as (H1 & H2). rewrite (network_out _ _ _ _ _ _ _ _ HM). constructor; [|exact (IH H2)].
    split; [exact (cfg_valid A k c n (z_cg q) (z_ks q) (z_s q) (z_d q) (z_p q) HM)|]. cbn [strd columns_cfg]. unfold kspan. cbn [dilat ksize columns_cfg]. lia.
  - destruct HO as (_ & H2). constructor; [exact I|exact (IH H2)].
Qed.

Lemma net_shapes_of c z Ls qs c' z' : network A c z Ls qs c' z' -> shapes_of (column_layers A c Ls qs) = net_shapes Ls qs.
Proof.
  intros HN. induction HN as [c z|c n c' z' k q Ls qs HM Hs HN IH|c z n g c' z' q Ls qs Hg HN IH]; cbn [column_layers shapes_of net_shapes]; [reflexivity| |].
  - rewrite (network_out _ _ _ _ _ _ _ _ HM), IH. unfold kspan. cbn [dilat ksize strd padn columns_cfg]. reflexivity.
  - exact IH.
Qed.

Definition item_columns (c : nat) (it : string * tensor) : string * list (list V) := (fst it, columns_of c (Z.to_nat (nth 1 (shp (snd it)) 0)) (snd it)).

Lemma items_same c items : Forall (fun it : string * tensor => exists n, 0 <= n /\ shp (snd it) = [Z.of_nat c; n]) items ->
  same_items c items (map (item_columns c) items).
Proof.
  induction 1 as [|it items (n & Hn & Hs) HF IH]; constructor; [|exact IH]. split; [reflexivity|]. unfold item_columns. cbn [snd]. rewrite Hs. cbn [nth].
  apply columns_of_holds. now rewrite Z2Nat.id.
Qed.

Lemma mapM_zip {X Y} (f : X -> res Y) l : forall o, mapM f l = Ok o -> Forall2 (fun x y => f x = Ok y) l o.
Proof.
  unfold mapM. induction l as [|x l IH]; intros o E; cbn [map seqM] in E; [injection E as <-; constructor|].
  destruct (f x) as [y|] eqn:Ex; [|discriminate]. destruct (seqM (map f l)) as [o'|] eqn:El; [|discriminate]. injection E as <-. constructor; [exact Ex|now apply IH].
Qed.

Lemma items_fit c items : Forall (fun it : string * tensor => exists n, 0 < n /\ shp (snd it) = [Z.of_nat c; n]) items ->
  same_items c items (map (item_columns c) items) /\ map fst (map (item_columns c) items) = map fst items /\
  map (fun it => Z.of_nat (length (snd it))) (map (item_columns c) items) = map (fun it : string * tensor => nth 1 (shp (snd it)) 0) items /\
  Forall (fun it : string * list (list V) => snd it <> []) (map (item_columns c) items).
Proof.
  intros HI. assert (HI' : Forall (fun it : string * tensor => exists n, 0 <= n /\ shp (snd it) = [Z.of_nat c; n]) items).
  { eapply Forall_impl; [|exact HI]. intros it (n & Hn & E). exists n. split; [lia|exact E]. }
  split; [now apply items_same|]. split; [rewrite map_map; reflexivity|]. split.
  - rewrite map_map. apply map_ext_in. intros it Hit. rewrite Forall_forall in HI'. destruct (HI' it Hit) as (n & Hn & E). unfold item_columns. cbn [snd]. rewrite E. cbn [nth].
    unfold columns_of. rewrite map_length, seq_length. lia.
  - rewrite Forall_map. eapply Forall_impl; [|exact HI]. intros it (n & Hn & E). unfold item_columns. cbn [snd]. rewrite E. cbn [nth]. unfold columns_of.
    intros EE. apply map_eq_nil in EE. apply (f_equal (@length nat)) in EE. rewrite seq_length in EE. cbn in EE. lia.
Qed.

Lemma columns_to_tensors c Ls qs c' z' items draws coins outs : mask_clears A -> network A c (repeat (zero A) c) Ls qs c' z' ->
  same_items c items (map (item_columns c) items) ->
  program (column_layers A c Ls qs) (repeat (zero A) c) (map (item_columns c) items) draws coins = Some (Ok outs) ->
  mapM (target (column_layers A c Ls qs)) (map snd (map (item_columns c) items)) = Ok outs ->
  exists touts, tprogram A Ls items draws coins = Some (Ok touts) /\
    Forall2 (fun it y => exists t, ttarget A Ls (snd it) = Ok t /\ row_of t y) items touts.
Proof.
  intros HA HN HS E1 E2. pose proof (program_agrees c Ls qs c' z' items _ draws coins HA HN HS) as HP.
  rewrite E1 in HP. destruct (tprogram A Ls items draws coins) as [[touts|]|]; cbn [agree] in HP; try contradiction.
  exists touts. split; [reflexivity|]. apply mapM_zip in E2. clear -HP E2 HS HN.
  rewrite map_map in E2. revert touts outs HP E2 HS. induction items as [|it items IH]; intros touts outs HP E2 HS; inversion E2; subst; inversion HP; subst; constructor.
  + inversion HS as [|? ? ? ? (_ & HC) HS']; subst. pose proof (target_agree c _ Ls qs c' z' _ _ HN HC) as HT.
    change (snd (item_columns c it)) with (columns_of c (Z.to_nat (nth 1 (shp (snd it)) 0)) (snd it)) in HT.
    match goal with H : target _ _ = Ok _ |- _ => rewrite H in HT end. destruct (ttarget A Ls (snd it)) as [t|]; cbn [agree] in HT; [|contradiction].
    exists t. split; [reflexivity|]. eapply row_of_holds; eassumption.
  + inversion HS; subst. eapply IH; eassumption.
Qed.

Theorem tprogram_offline c Ls qs c' z' items mn mx draws coins css : mask_clears A -> network A c (repeat (zero A) c) Ls qs c' z' -> net_overlapping Ls qs ->
  items <> [] -> NoDup (map fst items) -> Forall (fun it : string * tensor => exists n, 0 < n /\ shp (snd it) = [Z.of_nat c; n]) items ->
  1 <= mn -> Forall (fun d => mn <= d <= mx) draws ->
  all_chunks (map (fun it => nth 1 (shp (snd it)) 0) items) draws = Some css ->
  Forall (fun cs => lasting (net_shapes Ls qs) (map Z.to_nat cs)) css ->
  if (length (List.concat css) <=? heads coins)%nat
  then exists outs, tprogram A Ls items draws coins = Some (Ok outs) /\
         Forall2 (fun it y => exists t, ttarget A Ls (snd it) = Ok t /\ row_of t y) items outs
  else tprogram A Ls items draws coins = None.
Proof.
  intros HA HN HO H0 HD HI Hmn Hdr Hc Hl. destruct (items_fit c items HI) as (HS & EI & EN & HNE).
  pose proof (program_random (column_layers A c Ls qs) (repeat (zero A) c) z' (map (item_columns c) items) mn mx draws coins css) as HR.
  specialize (HR (net_smooth _ _ _ _ _ _ HN HO) (proj1 (network_zero A _ _ _ _ _ _ HN))).
  specialize (HR ltac:(intros E; apply map_eq_nil in E; contradiction)). rewrite EI, EN in HR. specialize (HR HD).
  specialize (HR HNE Hmn Hdr Hc). rewrite (net_shapes_of _ _ _ _ _ _ HN) in HR. specialize (HR Hl).
  destruct (length (List.concat css) <=? heads coins)%nat.
  - destruct HR as (outs & E1 & E2). eapply columns_to_tensors; eassumption.
  - pose proof (program_agrees c Ls qs c' z' items _ draws coins HA HN HS) as HP. rewrite HR in HP. destruct (tprogram A Ls items draws coins); [contradiction|reflexivity].
Qed.

Theorem tprogram_wav2letter c Ls qs c' z' items draws coins css : mask_clears A -> network A c (repeat (zero A) c) Ls qs c' z' -> net_overlapping Ls qs ->
  net_shapes Ls qs = wav2letter_shapes -> items <> [] -> NoDup (map fst items) ->
  Forall (fun it : string * tensor => exists n, 32000 < n /\ shp (snd it) = [Z.of_nat c; n]) items -> Forall (fun d => 16000 <= d <= 32000) draws ->
  all_chunks (map (fun it => nth 1 (shp (snd it)) 0) items) draws = Some css ->
  Forall (fun cs => 115 <= last cs 0) css -> (length (List.concat css) <= heads coins)%nat ->
  exists outs, tprogram A Ls items draws coins = Some (Ok outs) /\
    Forall2 (fun it y => exists t, ttarget A Ls (snd it) = Ok t /\ row_of t y) items outs.
Proof.
  intros HA HN HO Hsh H0 HD HI Hdr Hc Hl Hh.
  assert (HI' : Forall (fun it : string * tensor => exists n, 0 < n /\ shp (snd it) = [Z.of_nat c; n]) items).
  { eapply Forall_impl; [|exact HI]. intros it (n & Hn & E). exists n. split; [lia|exact E]. }
  destruct (items_fit c items HI') as (HS & EI & EN & HNE).
  destruct (wav2letter_run (column_layers A c Ls qs) (repeat (zero A) c) z' (map (item_columns c) items) draws coins css) as (outs & E1 & E2).
  - exact (net_smooth _ _ _ _ _ _ HN HO).
  - now rewrite (net_shapes_of _ _ _ _ _ _ HN).
  - exact (proj1 (network_zero A _ _ _ _ _ _ HN)).
  - intros E; apply map_eq_nil in E; contradiction.
  - now rewrite EI.
  - rewrite <- (Forall_map (fun it : string * list (list V) => Z.of_nat (length (snd it))) (fun n => 32000 < n)). rewrite EN, Forall_map.
    eapply Forall_impl; [|exact HI]. cbv beta. intros it (n & Hn & ->). exact Hn.
  - exact Hdr.
  - now rewrite EN.
  - exact Hl.
  - exact Hh.
  - eapply columns_to_tensors; eassumption.
Qed.

Theorem tprogram_short c Ls qs c' z' i (d : tensor) : mask_clears A -> network A c (repeat (zero A) c) Ls qs c' z' -> net_overlapping Ls qs ->
  net_shapes Ls qs = wav2letter_shapes -> shp d = [Z.of_nat c; 80046] ->
  exists e, tprogram A Ls [(i, d)] [16000; 16000; 16000; 16000; 16045; 16000] (repeat true 6) = Some (Err e).
Proof.
  intros HA HN HO Hsh Hd.
  destruct (items_fit c [(i, d)]) as (HS & _ & EN & _).
  { constructor; [|constructor]. exists 80046. split; [lia|exact Hd]. }
  pose proof (program_agrees c Ls qs c' z' [(i, d)] _ [16000; 16000; 16000; 16000; 16045; 16000] (repeat true 6) HA HN HS) as HP. cbn [map] in HP.
  destruct (wav2letter_fails (column_layers A c Ls qs) (repeat (zero A) c) z' i (snd (item_columns c (i, d)))) as (e & E).
  - exact (net_smooth _ _ _ _ _ _ HN HO).
  - now rewrite (net_shapes_of _ _ _ _ _ _ HN).
  - exact (proj1 (network_zero A _ _ _ _ _ _ HN)).
  - cbn [map] in EN. injection EN as EN. unfold item_columns in EN |- *. cbn [snd] in EN |- *. rewrite EN, Hd. reflexivity.
  - change (item_columns c (i, d)) with (i, snd (item_columns c (i, d))) in HP. rewrite E in HP.
    destruct (tprogram A Ls [(i, d)] _ _) as [[o|e']|]; cbn [agree] in HP; try contradiction. now exists e'.
Qed.

End ProgramTensorEndProofs.

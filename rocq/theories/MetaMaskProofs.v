(** Proofs about StreamMetadata indexed with a two-dimensional BoolTensor (tensor.py 462-502). *)

From Coq Require Import String List ZArith Bool Lia.
From Coq Require Import ZifyBool.
From Verif Require Import Py Meta MetaSpec MetaProofs MetaLenProofs MaskSpec.
Import ListNotations.
Open Scope Z_scope.

(* ---------- positions of a mask ---------- *)

Lemma positions_snoc n : 0 <= n -> positions (n + 1) = positions n ++ [n].
Proof.
  intros H. unfold positions. replace (Z.to_nat (n + 1)) with (S (Z.to_nat n)) by lia.
  rewrite seq_S, map_app. cbn. f_equal. f_equal. lia.
Qed.

Lemma filter_ext_in' {A} (f g : A -> bool) l : (forall a, In a l -> f a = g a) -> filter f l = filter g l.
Proof. induction l as [|a l IH]; intros H; auto. cbn. rewrite (H a) by now left. rewrite IH; auto. intros; apply H; now right. Qed.

Lemma mask_positions_snoc b x : mask_positions (b ++ [x]) = mask_positions b ++ (if x then [zlen b] else []).
Proof.
  unfold mask_positions. rewrite zlen_app. change (zlen [x]) with 1. rewrite positions_snoc by apply zlen_nonneg. rewrite filter_app. f_equal.
  - apply filter_ext_in'. intros p Hp. apply positions_spec in Hp. unfold zlen in Hp. rewrite app_nth1 by lia. reflexivity.
  - cbn [filter]. unfold zlen at 1. rewrite Nat2Z.id, app_nth2, Nat.sub_diag by lia. cbn. destruct x; reflexivity.
Qed.

Lemma mask_positions_bounds b p : In p (mask_positions b) -> 0 <= p < zlen b.
Proof. unfold mask_positions. intros H. apply filter_In in H as [H _]. now apply positions_spec. Qed.

Lemma mask_positions_zero b : memb 0 (mask_positions b) = hd false b.
Proof.
  destruct b as [|x b]; [reflexivity|]. unfold mask_positions, positions, zlen. cbn [length hd].
  rewrite Nat2Z.id. cbn [seq map]. cbn [filter]. change (Z.to_nat (Z.of_nat 0)) with 0%nat. cbn [nth].
  assert (G : memb 0 (filter (fun p => nth (Z.to_nat p) (x :: b) false) (map Z.of_nat (seq 1 (length b)))) = false).
  { unfold memb. apply not_true_iff_false. intros H. apply existsb_exists in H as (p & Hp & E).
    apply filter_In in Hp as [Hp _]. apply in_map_iff in Hp as (q & <- & Hq). apply in_seq in Hq. lia. }
  destruct x; [reflexivity|exact G].
Qed.

Lemma mask_positions_empty b : existsb (fun x => x) b = false -> mask_positions b = [].
Proof.
  induction b as [|x b IH] using rev_ind; auto. intros H. rewrite existsb_app in H. cbn in H. apply orb_false_iff in H as [H1 H2].
  rewrite mask_positions_snoc, IH by auto. destruct x; [discriminate|reflexivity].
Qed.

Lemma count_true_pos b : (0 <? count_true b) = existsb (fun x => x) b.
Proof.
  assert (G : 0 <= count_true b /\ (0 <? count_true b) = existsb (fun x => x) b).
  { unfold count_true. induction b as [|x b [IH1 IH2]]; [split; [cbn; lia|reflexivity]|]. cbn [map zsum fold_right existsb].
    fold (zsum (map b2z b)). destruct x; cbn [b2z orb]; [lia|]. rewrite <- IH2. split; [lia|reflexivity]. }
  apply G.
Qed.

Lemma count_real_mask b n : 0 <= n -> count_real (mask_positions b) n = count_true (firstn (Z.to_nat n) b).
Proof.
  intros Hn. unfold count_real, count_true. induction b as [|x b IH] using rev_ind; [rewrite firstn_nil; reflexivity|].
  rewrite mask_positions_snoc, filter_app, zlen_app, IH. destruct (Z.ltb_spec (zlen b) n) as [Hl|Hl].
  - unfold zlen in Hl. rewrite !firstn_all2 by (rewrite ?app_length; cbn; lia). rewrite map_app.
    assert (E : forall l1 l2, zsum (l1 ++ l2) = zsum l1 + zsum l2).
    { intros l1 l2. induction l1 as [|a l1 IH1]; [reflexivity|]. cbn [app zsum fold_right]. fold (zsum (l1 ++ l2)) (zsum l1). lia. }
    rewrite E. cbn [map zsum fold_right]. destruct x; cbn [filter]; [|reflexivity].
    assert (Hx : (zlen b <? n) = true) by (unfold zlen; lia). rewrite Hx. reflexivity.
  - unfold zlen in Hl. rewrite firstn_app. replace (Z.to_nat n - length b)%nat with 0%nat by lia. cbn [firstn]. rewrite app_nil_r.
    destruct x; cbn [filter]; [|cbn; lia]. assert (Hx : (zlen b <? n) = false) by (unfold zlen; lia). rewrite Hx. cbn. lia.
Qed.

Lemma cumsum_from_nth' l : forall acc j, (j < length l)%nat -> nth_error (cumsum_from acc l) j = Some (acc + zsum (firstn (S j) l)).
Proof.
  induction l as [|a l IH]; intros acc j Hj; [cbn in Hj; lia|]. cbn [cumsum_from].
  destruct j as [|j]; cbn [nth_error].
  - f_equal. cbn. lia.
  - rewrite IH by (cbn in Hj; lia). f_equal. replace (firstn (S (S j)) (a :: l)) with (a :: firstn (S j) l) by reflexivity.
    cbn [zsum fold_right]. fold (zsum (firstn (S j) l)). lia.
Qed.

Lemma cumsum_at_real b n : 1 <= n <= zlen b -> cumsum_at b (n - 1) = Ok (count_real (mask_positions b) n).
Proof.
  intros H. unfold cumsum_at, py_getitem. unfold zlen in H.
  assert (E : (n - 1 <? 0) = false) by lia. rewrite E, E. unfold cumsum.
  rewrite cumsum_from_nth' by (rewrite map_length; lia).
  rewrite count_real_mask by lia. replace (S (Z.to_nat (n - 1))) with (Z.to_nat n) by lia.
  unfold count_true. rewrite firstn_map. f_equal.
Qed.

(* ---------- last selected step ---------- *)

Fixpoint first_true (i : Z) (l : list bool) : Z :=
  match l with [] => 0 | b :: t => if b then i else first_true (i + 1) t end.

Lemma last_true_stop_eq b : last_true_stop b = zlen b - first_true 0 (rev b).
Proof. reflexivity. Qed.

Lemma first_true_shift l i : existsb (fun x => x) l = true -> first_true (i + 1) l = first_true i l + 1.
Proof.
  revert i. induction l as [|b l IH]; [discriminate|]. intros i H. cbn [first_true]. destruct b; [lia|]. cbn in H. now rewrite IH.
Qed.

Lemma last_true_stop_snoc b x : existsb (fun x => x) (b ++ [x]) = true ->
  last_true_stop (b ++ [x]) = if x then zlen b + 1 else last_true_stop b.
Proof.
  intros H. rewrite !last_true_stop_eq, zlen_app, rev_app_distr. change (zlen [x]) with 1. cbn [rev app first_true].
  destruct x; [lia|]. rewrite existsb_app in H. cbn in H. rewrite !orb_false_r in H.
  change (0 + 1) with (0 + 1). rewrite first_true_shift; [lia|].
  apply existsb_exists in H as (y & Hy & ->). apply existsb_exists. exists true. split; auto. now apply in_rev in Hy.
Qed.

Lemma reaches_stop b n : existsb (fun x => x) b = true ->
  (n <=? last_true_stop b) = existsb (fun p => n - 1 <=? p) (mask_positions b).
Proof.
  induction b as [|x b IH] using rev_ind; [discriminate|]. intros H. rewrite last_true_stop_snoc by auto.
  rewrite mask_positions_snoc, existsb_app. destruct x; cbn [existsb].
  - rewrite orb_false_r. destruct (Z.leb_spec (n - 1) (zlen b)) as [L|L].
    + rewrite orb_true_r. lia.
    + rewrite orb_false_r. assert (E : (n <=? zlen b + 1) = false) by lia. rewrite E. symmetry. apply not_true_iff_false.
      intros G. apply existsb_exists in G as (p & Hp & E'). apply mask_positions_bounds in Hp. lia.
  - rewrite orb_false_r. apply IH. rewrite existsb_app in H. cbn in H. now rewrite orb_false_r in H.
Qed.

(* ---------- the kept rows ---------- *)


Lemma masked_kept {A} (f : row -> A) rs mask : length mask = length rs ->
  masked (map f rs) (map some_true mask) = map (fun p => f (fst p)) (kept_rows rs mask).
Proof.
  unfold masked, kept_rows. revert mask. induction rs as [|r rs IH]; intros [|b mask] H; try discriminate; auto.
  cbn [map combine filter snd]. injection H as H. specialize (IH mask H). destruct (some_true b); cbn [map fst snd]; rewrite IH; reflexivity.
Qed.

Lemma masked_mask rs mask : length mask = length rs ->
  masked mask (map some_true mask) = map snd (kept_rows rs mask).
Proof.
  unfold masked, kept_rows. revert mask. induction rs as [|r rs IH]; intros [|b mask] H; try discriminate; auto.
  cbn [map combine filter snd]. injection H as H. specialize (IH mask H). destruct (some_true b) eqn:E; cbn [map fst snd]; rewrite IH; reflexivity.
Qed.

Lemma kept_rows_all rs mask : length mask = length rs -> forallb (fun b => b) (map some_true mask) = true ->
  kept_rows rs mask = combine rs mask.
Proof.
  intros H HA. unfold kept_rows. apply filter_all. intros [r b] Hp. apply in_combine_r in Hp. cbn [snd].
  rewrite forallb_forall in HA. apply HA. now apply in_map.
Qed.

Lemma combine_fst {A B} (l : list A) (l' : list B) : length l' = length l -> map fst (combine l l') = l.
Proof. revert l'. induction l as [|a l IH]; intros [|b l'] H; try discriminate; auto. cbn. f_equal. auto. Qed.
Lemma combine_snd {A B} (l : list A) (l' : list B) : length l' = length l -> map snd (combine l l') = l'.
Proof. revert l'. induction l as [|a l IH]; intros [|b l'] H; try discriminate; auto. cbn. f_equal. auto. Qed.

Lemma max_one rs : Forall (fun r => 1 <= rlen r <= 1) rs -> rs <> [] -> forall c, max_length (of_rows c rs) = Ok 1.
Proof.
  intros H Hne c. apply max_length_of_rows. split.
  - destruct rs as [|r rs]; [contradiction|]. exists r. split; [now left|]. inversion H; subst. lia.
  - intros r Hr. rewrite Forall_forall in H. specialize (H r Hr). lia.
Qed.

Lemma mask2d_exact c rs mask T : length mask = length rs -> Forall (fun b => length b = T) mask ->
  Forall (fun r => 1 <= rlen r <= Z.of_nat T) rs -> existsb some_true mask = true ->
  c = false \/ forallb some_true mask = true ->
  index_batch_and_length (of_rows c rs) mask T
  = Ok (of_rows c (map (fun p => mask_row (mask_positions (snd p)) (fst p)) (kept_rows rs mask))).
Proof.
  intros HL HT HR HS HC. unfold index_batch_and_length.
  assert (HT0 : T <> 0%nat).
  { intros ->. destruct mask as [|b mask]; [discriminate|]. destruct rs as [|r rs]; [discriminate|].
    inversion HR as [|? ? H _]; subst. cbn in H. lia. }
  rewrite (proj2 (Nat.eqb_neq T 0) HT0).
  replace (map (fun r => 0 <? count_true r) mask) with (map some_true mask).
  2:{ apply map_ext. intros b. symmetry. apply count_true_pos. }
  cbv zeta. unfold any_true.
  assert (HA : existsb (fun b => b) (map some_true mask) = true).
  { apply existsb_exists in HS as (b & Hb & E). apply existsb_exists. exists (some_true b). split; auto. now apply in_map. }
  rewrite HA. cbn [negb].
  assert (Hne : rs <> []) by (intros ->; destruct mask; discriminate).
  assert (Hmx : exists mx, (if Nat.eqb T 1 then max_length (of_rows c rs) else Ok 0) = Ok mx /\ (mx >? 1) = false).
  { destruct (Nat.eqb_spec T 1) as [->|]; [|exists 0; auto]. exists 1. split; [|reflexivity]. apply max_one; auto. }
  destruct Hmx as (mx & -> & Hmx). cbn [bind]. rewrite Hmx, andb_false_r.
  assert (Hbb : Nat.eqb (length mask) 1 && (1 <? meta_len (of_rows c rs)) = false).
  { unfold meta_len, of_rows. cbn [ids]. rewrite zlen_map. unfold zlen. rewrite <- HL.
    destruct (Nat.eqb_spec (length mask) 1) as [->|]; reflexivity. }
  rewrite Hbb. cbn [andb]. unfold of_rows at 1 2 3 4 5 6 7 8 9 10. cbn [ids sos eos lens chs].
  set (K := kept_rows rs mask).
  assert (HK : (if negb (all_true (map some_true mask))
     then
      do i <- ids_by_mask (map rid rs) (map some_true mask);
      do s <- tensor_mask (map rsos rs) (map some_true mask);
      do e <- tensor_mask (map reos rs) (map some_true mask);
      do l <- tensor_mask (map rlen rs) (map some_true mask);
      do c0 <- opt_field (fun c0 => tensor_mask c0 (map some_true mask)) (if c then Some (map rch rs) else None);
      Ok (i, s, e, l, c0, select_mask mask (map some_true mask))
     else Ok (map rid rs, map rsos rs, map reos rs, map rlen rs, if c then Some (map rch rs) else None, mask))
    = Ok (map (fun p => rid (fst p)) K, map (fun p => rsos (fst p)) K, map (fun p => reos (fst p)) K, map (fun p => rlen (fst p)) K,
          (if c then Some (map (fun p => rch (fst p)) K) else None), map snd K)).
  { unfold all_true. destruct (forallb (fun b => b) (map some_true mask)) eqn:E; cbn [negb].
    - assert (EK : K = combine rs mask) by (apply kept_rows_all; auto). rewrite EK.
      assert (G : forall {A} (f : row -> A), map (fun p => f (fst p)) (combine rs mask) = map f rs).
      { intros A f. rewrite <- map_map with (f := fst) (g := f). now rewrite combine_fst. }
      rewrite !G, combine_snd by auto. reflexivity.
    - rewrite ids_by_mask_eq by (rewrite !map_length; lia). cbn [bind]. unfold tensor_mask. rewrite !map_length, HL, Nat.eqb_refl. cbn [bind].
      rewrite !select_mask_masked, !masked_kept, (masked_mask rs mask) by auto. fold K.
      destruct c; cbn [opt_field]; [|reflexivity]. rewrite ?map_length, ?HL, ?Nat.eqb_refl. cbn [bind].
      rewrite select_mask_masked, masked_kept by auto. reflexivity. }
  rewrite HK. cbn [bind]. rewrite !map_length, Nat.eqb_refl.
  cbn [bind]. rewrite !map_map.
  rewrite !zip_map, !map_map.
  assert (HM : forall (l : list (row * list bool)), (forall p, In p l -> 1 <= rlen (fst p) <= zlen (snd p)) ->
     mapM (fun p => cumsum_at (fst p) (snd p - 1)) (map (fun p => (snd p, rlen (fst p))) l)
     = Ok (map (fun p => count_real (mask_positions (snd p)) (rlen (fst p))) l)).
  { intros l H. induction l as [|p l IH]; [reflexivity|]. cbn [map]. rewrite mapM_cons. cbn [fst snd].
    rewrite cumsum_at_real by (apply H; now left). cbn [bind]. rewrite IH by (intros; apply H; now right). reflexivity. }
  rewrite HM.
  2:{ intros [r b] Hp. apply filter_In in Hp as [Hp _]. cbn [fst snd]. rewrite Forall_forall in HR, HT.
      specialize (HR r (in_combine_l _ _ _ _ Hp)). specialize (HT b (in_combine_r _ _ _ _ Hp)). unfold zlen. lia. }
  cbn [bind].
  assert (HO : opt_field (fun c0 => tensor_mask c0 (map some_true mask)) (if c then Some (map (fun p => rch (fst p)) K) else None)
     = Ok (if c then Some (map (fun p => rch (fst p)) K) else None)).
  { destruct HC as [->|HC]; [reflexivity|]. destruct c; [|reflexivity]. cbn [opt_field].
    assert (E : forallb (fun b => b) (map some_true mask) = true).
    { rewrite forallb_forall in *. intros b Hb. apply in_map_iff in Hb as (q & <- & Hq). auto. }
    assert (EK : K = combine rs mask) by (apply kept_rows_all; auto). rewrite EK.
    assert (G : forall {A} (f : row -> A), map (fun p => f (fst p)) (combine rs mask) = map f rs).
    { intros A f. rewrite <- map_map with (f := fst) (g := f). now rewrite combine_fst. }
    rewrite G. unfold tensor_mask. rewrite !map_length, HL, Nat.eqb_refl. cbn [bind].
    rewrite select_mask_masked, masked_kept by auto. unfold K in EK. rewrite EK. now rewrite G. }
  rewrite HO. cbn [bind]. rewrite <- make_meta_of_rows. rewrite !map_map. cbn [rid rsos reos rlen rch mask_row].
  f_equal.
  - apply map_ext. intros p. cbn [fst snd]. now rewrite mask_positions_zero.
  - apply map_ext_in. intros [r b] Hp. cbn [fst snd]. apply filter_In in Hp as [Hp Hs]. cbn [snd] in Hs.
    rewrite reaches_stop by exact Hs. rewrite mask_positions_zero. f_equal. f_equal.
    rewrite Forall_forall in HR. specialize (HR r (in_combine_l _ _ _ _ Hp)).
    destruct (hd false b); cbn [b2z]; destruct (Z.eqb_spec (rlen r) 1); cbn [andb negb]; lia.
Qed.

(** If the mask selects real steps only, and rows of length one do not end, the kept rows are what [row_keep] says. *)
Lemma mask_row_keep ps r : (forall p, In p ps -> p < rlen r) -> (rlen r = 1 -> reos r = false) ->
  mask_row ps r = row_keep ps r.
Proof.
  intros H H1. unfold mask_row, row_keep. f_equal. destruct (reos r) eqn:E; [|reflexivity]. cbn [andb].
  assert (H2 : (rlen r =? 1) = false) by (apply Z.eqb_neq; intros G; specialize (H1 G); discriminate).
  rewrite H2. cbn [andb negb]. unfold memb.
  apply eq_iff_eq_true. rewrite !existsb_exists. split.
  - intros (p & Hp & L). exists p. split; auto. specialize (H p Hp). lia.
  - intros (p & Hp & L). exists p. split; auto. lia.
Qed.

Lemma mask2d_nothing c rs mask T : T <> 0%nat -> existsb some_true mask = false ->
  index_batch_and_length (of_rows c rs) mask T = Ok (of_rows false []).
Proof.
  intros HT HS. unfold index_batch_and_length. rewrite (proj2 (Nat.eqb_neq T 0) HT). cbv zeta.
  assert (HA : any_true (map (fun r => 0 <? count_true r) mask) = false).
  { unfold any_true. apply not_true_iff_false. intros H. apply existsb_exists in H as (b & Hb & ->).
    apply in_map_iff in Hb as (q & E & Hq). rewrite count_true_pos in E.
    assert (existsb some_true mask = true) by (apply existsb_exists; eauto). congruence. }
  rewrite HA. reflexivity.
Qed.

(** With chunk indices a mask that drops a row fails: the indices are masked twice. *)
Lemma mask2d_chunks_fail rs mask T : length mask = length rs -> Forall (fun b => length b = T) mask ->
  Forall (fun r => 1 <= rlen r <= Z.of_nat T) rs -> existsb some_true mask = true -> forallb some_true mask = false ->
  index_batch_and_length (of_rows true rs) mask T = Err IndexError.
Proof.
  intros HL HT HR HS HC. unfold index_batch_and_length.
  assert (HT0 : T <> 0%nat).
  { intros ->. destruct mask as [|b mask]; [discriminate|]. destruct rs as [|r rs]; [discriminate|].
    inversion HR as [|? ? H _]; subst. cbn in H. lia. }
  rewrite (proj2 (Nat.eqb_neq T 0) HT0).
  replace (map (fun r => 0 <? count_true r) mask) with (map some_true mask).
  2:{ apply map_ext. intros b. symmetry. apply count_true_pos. }
  cbv zeta. unfold any_true.
  assert (HA : existsb (fun b => b) (map some_true mask) = true).
  { apply existsb_exists in HS as (b & Hb & E). apply existsb_exists. exists (some_true b). split; auto. now apply in_map. }
  rewrite HA. cbn [negb].
  assert (Hne : rs <> []) by (intros ->; destruct mask; discriminate).
  assert (Hmx : exists mx, (if Nat.eqb T 1 then max_length (of_rows true rs) else Ok 0) = Ok mx /\ (mx >? 1) = false).
  { destruct (Nat.eqb_spec T 1) as [->|]; [|exists 0; auto]. exists 1. split; [|reflexivity]. apply max_one; auto. }
  destruct Hmx as (mx & -> & Hmx). cbn [bind]. rewrite Hmx, andb_false_r.
  assert (Hbb : Nat.eqb (length mask) 1 && (1 <? meta_len (of_rows true rs)) = false).
  { unfold meta_len, of_rows. cbn [ids]. rewrite zlen_map. unfold zlen. rewrite <- HL.
    destruct (Nat.eqb_spec (length mask) 1) as [->|]; reflexivity. }
  rewrite Hbb. cbn [andb]. unfold of_rows. cbn [ids sos eos lens chs].
  assert (E : all_true (map some_true mask) = false).
  { unfold all_true. apply not_true_iff_false. intros H. rewrite <- not_true_iff_false in HC. apply HC.
    rewrite forallb_forall in *. intros b Hb. apply H. now apply in_map. }
  rewrite E. cbn [negb].
  set (K := kept_rows rs mask).
  rewrite ids_by_mask_eq by (rewrite !map_length; lia). cbn [bind]. unfold tensor_mask. rewrite !map_length, HL, Nat.eqb_refl. cbn [bind opt_field].
  rewrite ?map_length, ?HL, ?Nat.eqb_refl. cbn [bind].
  rewrite !select_mask_masked, !masked_kept, (masked_mask rs mask) by auto. fold K.
  rewrite !map_length, Nat.eqb_refl. cbn [bind].
  rewrite !zip_map.
  assert (HM : forall (l : list (row * list bool)), (forall p, In p l -> 1 <= rlen (fst p) <= zlen (snd p)) ->
     mapM (fun p => cumsum_at (fst p) (snd p - 1)) (map (fun p => (snd p, rlen (fst p))) l)
     = Ok (map (fun p => count_real (mask_positions (snd p)) (rlen (fst p))) l)).
  { intros l H. induction l as [|p l IH]; [reflexivity|]. cbn [map]. rewrite mapM_cons. cbn [fst snd].
    rewrite cumsum_at_real by (apply H; now left). cbn [bind]. rewrite IH by (intros; apply H; now right). reflexivity. }
  rewrite HM.
  2:{ intros [r b] Hp. apply filter_In in Hp as [Hp _]. cbn [fst snd]. rewrite Forall_forall in HR, HT.
      specialize (HR r (in_combine_l _ _ _ _ Hp)). specialize (HT b (in_combine_r _ _ _ _ Hp)). unfold zlen. lia. }
  cbn [bind].
  assert (HKL : length K <> length rs).
  { unfold K, kept_rows. intros G. assert (GL : length (combine rs mask) = length rs) by (rewrite combine_length; lia).
    rewrite <- GL in G.
    assert (FA : forall {A} (f : A -> bool) l, length (filter f l) = length l -> forallb f l = true).
    { intros A f l. induction l as [|a l IHl]; [reflexivity|]. cbn [filter forallb]. destruct (f a); cbn [length andb].
      - intros; apply IHl; lia.
      - intros Hx. assert (LE : (length (filter f l) <= length l)%nat).
        { clear. induction l as [|a l IH]; cbn; [lia|]. destruct (f a); cbn; lia. }
        lia. }
    apply FA in G. rewrite <- not_true_iff_false in HC. apply HC. rewrite forallb_forall in *. intros b Hb.
    rewrite <- (combine_snd rs mask HL) in Hb. apply in_map_iff in Hb as (q & <- & Hq). exact (G q Hq). }
  cbn [opt_field]. rewrite map_length, (proj2 (Nat.eqb_neq _ _) HKL). reflexivity.
Qed.

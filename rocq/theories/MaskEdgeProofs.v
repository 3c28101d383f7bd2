(** Proofs about StreamMetadata indexed with a two-dimensional BoolTensor that does not have the size of the batch: one row,
    one column, wrong numbers of rows, too few columns (tensor.py 462-502). *)

From Coq Require Import String List ZArith Bool Lia.
From Coq Require Import ZifyBool.
From Verif Require Import Py Meta MetaSpec MetaProofs MetaLenProofs MaskSpec MetaMaskProofs.
Import ListNotations.
Open Scope Z_scope.

Lemma keep_some mask : map (fun r => 0 <? count_true r) mask = map some_true mask.
Proof. apply map_ext. intros b. apply count_true_pos. Qed.

Lemma any_keep mask : any_true (map some_true mask) = existsb some_true mask.
Proof. unfold any_true. induction mask as [|b mask IH]; [reflexivity|]. cbn. now rewrite IH. Qed.

Lemma all_keep mask : all_true (map some_true mask) = forallb some_true mask.
Proof. unfold all_true. induction mask as [|b mask IH]; [reflexivity|]. cbn. now rewrite IH. Qed.

Lemma mapM_cumsum b (rs : list row) : Forall (fun r => 1 <= rlen r <= zlen b) rs ->
  mapM (fun p => cumsum_at (fst p) (snd p - 1)) (map (fun r => (b, rlen r)) rs)
  = Ok (map (fun r => count_real (mask_positions b) (rlen r)) rs).
Proof.
  induction 1 as [|r rs H F IH]; [reflexivity|]. cbn [map]. rewrite mapM_cons. cbn [fst snd].
  rewrite cumsum_at_real by exact H. cbn [bind]. rewrite IH. reflexivity.
Qed.

(** One row for several streams. *)
Lemma mask2d_one_row c rs b : (2 <= length rs)%nat -> In true b -> Forall (fun r => 1 <= rlen r <= zlen b) rs ->
  index_batch_and_length (of_rows c rs) [b] (length b)
  = if c then Err IndexError else Ok (of_rows false (map (mask_row (mask_positions b)) rs)).
Proof.
  intros HL Ht HR. unfold index_batch_and_length.
  assert (HT0 : length b <> 0%nat) by (destruct b; [destruct Ht|discriminate]).
  rewrite (proj2 (Nat.eqb_neq _ 0) HT0). rewrite keep_some. cbv zeta. rewrite any_keep, all_keep.
  assert (Hs : some_true b = true) by (apply existsb_exists; exists true; auto).
  cbn [map existsb forallb]. rewrite Hs. cbn [orb andb negb].
  assert (Hne : rs <> []) by (intros ->; cbn in HL; lia).
  assert (Hmx : exists mx, (if Nat.eqb (length b) 1 then max_length (of_rows c rs) else Ok 0) = Ok mx /\ (mx >? 1) = false).
  { destruct (Nat.eqb_spec (length b) 1) as [E|]; [|exists 0; auto]. exists 1. split; [|reflexivity].
    apply max_one; auto. eapply Forall_impl; [|exact HR]. unfold zlen. rewrite E. cbn. lia. }
  destruct Hmx as (mx & -> & Hmx). cbn [bind]. rewrite Hmx, !andb_false_r. cbn [bind].
  change (ids (of_rows c rs)) with (map rid rs). change (sos (of_rows c rs)) with (map rsos rs).
  change (eos (of_rows c rs)) with (map reos rs). change (lens (of_rows c rs)) with (map rlen rs).
  change (chs (of_rows c rs)) with (if c then Some (map rch rs) else None).
  cbn [map length hd]. rewrite !map_length. assert (HN : Nat.eqb 1 (length rs) = false) by (apply Nat.eqb_neq; lia).
  rewrite !HN. cbn [bind Nat.eqb].
  rewrite !map_map, !zip_map, mapM_cumsum by exact HR. cbn [bind].
  destruct c; cbn [opt_field].
  - unfold tensor_mask. rewrite map_length. cbn [length]. destruct (Nat.eqb_spec (length rs) 1); [lia|]. reflexivity.
  - cbn [bind]. rewrite <- (make_meta_of_rows false). rewrite !map_map. cbn [rid rsos reos rlen rch mask_row]. f_equal.
    + apply map_ext. intros r. now rewrite mask_positions_zero.
    + apply map_ext_in. intros r Hr. rewrite reaches_stop by exact Hs. rewrite mask_positions_zero. f_equal. f_equal.
      rewrite Forall_forall in HR. specialize (HR r Hr).
      destruct (hd false b); cbn [b2z]; destruct (Z.eqb_spec (rlen r) 1); cbn [andb negb]; lia.
Qed.

(** One column for streams of which some has more than one step: whole streams are kept or dropped. *)
Lemma mask2d_one_column c rs bs mx : length bs = length rs -> is_max_len rs mx -> 1 < mx -> In true bs ->
  index_batch_and_length (of_rows c rs) (map (fun b => [b]) bs) 1
  = Ok (of_rows c (map fst (filter snd (combine rs bs)))).
Proof.
  intros HL HM Hmx Ht. unfold index_batch_and_length. cbn [Nat.eqb]. rewrite keep_some. cbv zeta. rewrite any_keep, all_keep.
  set (mask := map (fun b => [b]) bs).
  assert (HK : map some_true mask = bs).
  { unfold mask. rewrite map_map. rewrite <- (map_id bs) at 2. apply map_ext. intros []; reflexivity. }
  assert (HA : existsb some_true mask = true).
  { apply existsb_exists. exists [true]. split; [|reflexivity]. unfold mask. apply in_map_iff. exists true. auto. }
  rewrite HA. cbn [negb].
  rewrite (max_length_of_rows c rs mx HM). cbn [bind].
  assert (E1 : (mx >? 1) = true) by lia. rewrite E1. cbn [andb].
  assert (HLm : length mask = length rs) by (unfold mask; now rewrite map_length).
  assert (Hbb : Nat.eqb (length mask) 1 && (1 <? meta_len (of_rows c rs)) = false).
  { unfold meta_len, of_rows. cbn [ids]. rewrite zlen_map. unfold zlen. rewrite <- HLm.
    destruct (Nat.eqb_spec (length mask) 1) as [->|]; reflexivity. }
  rewrite Hbb. cbn [andb]. rewrite HK. unfold of_rows at 1 2 3 4 5 6 7 8 9 10. cbn [ids sos eos lens chs].
  set (K := filter snd (combine rs bs)).
  assert (G : forall {A} (f : row -> A), masked (map f rs) bs = map (fun p => f (fst p)) K).
  { intros A f. unfold masked, K. clear - HL. revert bs HL. induction rs as [|r rs IH]; intros [|b bs] H; try discriminate; auto.
    cbn [map combine filter snd]. injection H as H. specialize (IH bs H). destruct b; cbn [map fst snd]; rewrite IH; reflexivity. }
  assert (GM : masked mask bs = map (fun _ => [true]) K).
  { unfold masked, K, mask. clear - HL. revert bs HL. induction rs as [|r rs IH]; intros [|b bs] H; try discriminate; auto.
    cbn [map combine filter snd]. injection H as H. specialize (IH bs H). destruct b; cbn [map fst snd]; rewrite IH; reflexivity. }
  assert (HR : (if negb (forallb some_true mask)
     then
      do i <- ids_by_mask (map rid rs) bs;
      do s <- tensor_mask (map rsos rs) bs;
      do e <- tensor_mask (map reos rs) bs;
      do l <- tensor_mask (map rlen rs) bs;
      do c0 <- opt_field (fun c0 => tensor_mask c0 bs) (if c then Some (map rch rs) else None);
      Ok (i, s, e, l, c0, select_mask mask bs)
     else Ok (map rid rs, map rsos rs, map reos rs, map rlen rs, if c then Some (map rch rs) else None, mask))
    = Ok (map (fun p => rid (fst p)) K, map (fun p => rsos (fst p)) K, map (fun p => reos (fst p)) K, map (fun p => rlen (fst p)) K,
          (if c then Some (map (fun p => rch (fst p)) K) else None), map (fun _ => [true]) K)).
  { destruct (forallb some_true mask) eqn:E; cbn [negb].
    - assert (HB : forall b, In b bs -> b = true).
      { intros b Hb. rewrite forallb_forall in E. specialize (E [b]). destruct b; auto. apply E. unfold mask.
        apply in_map_iff. exists false. auto. }
      assert (EK : K = combine rs bs).
      { apply filter_all. intros [r b] Hp. apply in_combine_r in Hp. now apply HB. }
      assert (G2 : forall {A} (f : row -> A), map (fun p => f (fst p)) K = map f rs).
      { intros A f. rewrite EK, <- map_map with (f := fst) (g := f). now rewrite combine_fst. }
      rewrite !G2. do 2 f_equal. rewrite EK. unfold mask. rewrite <- (combine_snd rs bs HL) at 1. rewrite map_map.
      apply map_ext_in. intros [r b] Hp. apply in_combine_r in Hp. cbn [snd]. now rewrite (HB b Hp).
    - rewrite ids_by_mask_eq by (rewrite map_length; lia). cbn [bind]. unfold tensor_mask. rewrite !map_length, HL, Nat.eqb_refl. cbn [bind].
      rewrite !select_mask_masked, !G, GM.
      destruct c; cbn [opt_field]; [|reflexivity]. rewrite ?map_length, ?HL, ?Nat.eqb_refl. cbn [bind].
      rewrite select_mask_masked, G. reflexivity. }
  rewrite HR. cbn [bind]. rewrite !map_length, Nat.eqb_refl. cbn [bind]. rewrite map_map, zip_map, map_map. cbn [hd fst snd].
  rewrite <- make_meta_of_rows. rewrite !map_map. f_equal. apply map_ext. intros p. apply andb_true_r.
Qed.

(** A single true entry for several streams of which some has more than one step: everything is kept. *)
Lemma mask2d_single c rs mx : (2 <= length rs)%nat -> is_max_len rs mx -> 1 < mx ->
  index_batch_and_length (of_rows c rs) [[true]] 1 = Ok (of_rows c rs).
Proof.
  intros HL HM Hmx. unfold index_batch_and_length. cbn [Nat.eqb]. cbv zeta.
  change (any_true (map (fun r => 0 <? count_true r) [[true]])) with true. cbn [negb].
  rewrite (max_length_of_rows c rs mx HM). cbn [bind length Nat.eqb].
  assert (E1 : (mx >? 1) = true) by lia. rewrite E1.
  assert (E2 : (1 <? meta_len (of_rows c rs)) = true).
  { unfold meta_len, of_rows. cbn [ids]. rewrite zlen_map. unfold zlen. lia. }
  rewrite E2. reflexivity.
Qed.

(** Any other number of rows is refused. *)
Lemma mask2d_wrong_rows c rs mask T : T <> 0%nat -> length mask <> length rs -> length mask <> 1%nat ->
  existsb some_true mask = true -> exists e, index_batch_and_length (of_rows c rs) mask T = Err e.
Proof.
  intros HT HL H1 HS. unfold index_batch_and_length. rewrite (proj2 (Nat.eqb_neq T 0) HT). rewrite keep_some. cbv zeta.
  rewrite any_keep, all_keep, HS. cbn [negb].
  destruct (if Nat.eqb T 1 then max_length (of_rows c rs) else Ok 0) as [mx|e]; [|eexists; reflexivity]. cbn [bind].
  destruct (Nat.eqb_spec (length mask) 1) as [E|_]; [contradiction|]. cbn [andb].
  unfold of_rows at 1 2 3 4 5 6 7 8 9 10. cbn [ids sos eos lens chs].
  destruct (forallb some_true mask) eqn:EA; cbn [negb].
  - cbn [bind]. rewrite !map_length. destruct (Nat.eqb_spec (length mask) (length rs)) as [E|_]; [contradiction|].
    destruct (Nat.eqb_spec (length mask) 1) as [E|_]; [contradiction|].
    destruct (Nat.eqb (length rs) 1); eexists; reflexivity.
  - destruct (ids_by_mask (map rid rs) (map some_true mask)) as [i|e]; [|eexists; reflexivity]. cbn [bind].
    unfold tensor_mask at 1. rewrite !map_length. destruct (Nat.eqb_spec (length rs) (length mask)) as [E|_]; [lia|].
    eexists; reflexivity.
Qed.

(** A mask with at least two columns but fewer than some kept stream has steps is refused. *)
Lemma mask2d_too_few_columns c rs mask T : length mask = length rs -> Forall (fun b => length b = T) mask -> (2 <= T)%nat ->
  Forall (fun r => 1 <= rlen r) rs -> Exists (fun p => Z.of_nat T < rlen (fst p)) (kept_rows rs mask) ->
  index_batch_and_length (of_rows c rs) mask T = Err IndexError.
Proof.
  intros HL HTm HT HR HX. unfold index_batch_and_length.
  destruct (Nat.eqb_spec T 0) as [|_]; [lia|]. rewrite keep_some. cbv zeta. rewrite any_keep, all_keep.
  assert (HS : existsb some_true mask = true).
  { apply Exists_exists in HX as ([r b] & Hp & _). apply filter_In in Hp as [Hp Hb]. apply existsb_exists. exists b.
    split; auto. now apply in_combine_r in Hp. }
  rewrite HS. cbn [negb]. destruct (Nat.eqb_spec T 1) as [|_]; [lia|]. cbn [bind andb]. rewrite andb_false_r.
  unfold of_rows at 1 2 3 4 5 6 7 8 9 10. cbn [ids sos eos lens chs].
  set (K := kept_rows rs mask) in *.
  assert (HK : (if negb (forallb some_true mask)
     then
      do i <- ids_by_mask (map rid rs) (map some_true mask);
      do s <- tensor_mask (map rsos rs) (map some_true mask);
      do e <- tensor_mask (map reos rs) (map some_true mask);
      do l <- tensor_mask (map rlen rs) (map some_true mask);
      do c0 <- opt_field (fun c0 => tensor_mask c0 (map some_true mask)) (if c then Some (map rch rs) else None);
      Ok (i, s, e, l, c0, select_mask mask (map some_true mask))
     else Ok (map rid rs, map rsos rs, map reos rs, map rlen rs, if c then Some (map rch rs) else None, mask))
    = Ok (map (fun p => rid (fst p)) K, map (fun p => rsos (fst p)) K, map (fun p => reos (fst p)) K, map (fun p => rlen (fst p)) K,
          (if c then Some (map (fun p => rch (fst p)) K) else None), map snd K)).
  { destruct (forallb some_true mask) eqn:E; cbn [negb].
    - assert (EK : K = combine rs mask).
      { apply kept_rows_all; auto. fold (all_true (map some_true mask)). now rewrite all_keep. }
      rewrite EK.
      assert (G : forall {A} (f : row -> A), map (fun p => f (fst p)) (combine rs mask) = map f rs).
      { intros A f. rewrite <- map_map with (f := fst) (g := f). now rewrite combine_fst. }
      rewrite !G, combine_snd by auto. reflexivity.
    - rewrite ids_by_mask_eq by (rewrite !map_length; lia). cbn [bind]. unfold tensor_mask. rewrite !map_length, HL, Nat.eqb_refl. cbn [bind].
      rewrite !select_mask_masked, !masked_kept, (masked_mask rs mask) by auto. fold K.
      destruct c; cbn [opt_field]; [|reflexivity]. rewrite ?map_length, ?HL, ?Nat.eqb_refl. cbn [bind].
      rewrite select_mask_masked, masked_kept by auto. reflexivity. }
  rewrite HK. cbn [bind]. rewrite !map_length, Nat.eqb_refl. cbn [bind].
  rewrite !zip_map.
  assert (HM : forall (l : list (row * list bool)), (forall p, In p l -> 1 <= rlen (fst p) /\ length (snd p) = T) ->
     Exists (fun p => Z.of_nat T < rlen (fst p)) l ->
     mapM (fun p => cumsum_at (fst p) (snd p - 1)) (map (fun p => (snd p, rlen (fst p))) l) = Err IndexError).
  { intros l H X. induction l as [|p l IH]; [inversion X|]. cbn [map]. rewrite mapM_cons. cbn [fst snd].
    destruct (H p (or_introl eq_refl)) as [H1 H2].
    destruct (Z_le_gt_dec (rlen (fst p)) (Z.of_nat T)) as [L|L].
    - rewrite cumsum_at_real by (unfold zlen; lia). cbn [bind]. rewrite IH; auto.
      + intros q Hq. apply H. now right.
      + inversion X; subst; [lia|assumption].
    - unfold cumsum_at, py_getitem. assert (E : (rlen (fst p) - 1 <? 0) = false) by lia. rewrite E, E.
      assert (N : forall l0 acc, length (cumsum_from acc l0) = length l0).
      { clear. induction l0 as [|a l0 IH]; intros acc; cbn; auto. }
      rewrite (proj2 (nth_error_None _ _)); [reflexivity|]. unfold cumsum. rewrite N, map_length. lia. }
  rewrite HM; [reflexivity| |exact HX].
  intros [r b] Hp. apply filter_In in Hp as [Hp _]. cbn [fst snd]. rewrite Forall_forall in HR, HTm.
  split; [apply HR; now apply in_combine_l in Hp|apply HTm; now apply in_combine_r in Hp].
Qed.

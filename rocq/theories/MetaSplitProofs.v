(** Lemmas about split and cat of metadata. *)

From Coq Require Import String List ZArith Bool Lia Permutation.
From Coq Require Import ZifyBool.
From Verif Require Import Py Meta MetaSpec MetaProofs MetaLenProofs.
Import ListNotations.
Open Scope Z_scope.

(* ---------- sums ---------- *)

Lemma zsum_app a b : zsum (a ++ b) = zsum a + zsum b.
Proof. induction a; simpl; lia. Qed.

Lemma total_len_app a b : total_len (a ++ b) = total_len a + total_len b.
Proof. unfold total_len; now rewrite map_app, zsum_app. Qed.

Lemma total_len_nonneg l : Forall (fun p => 0 <= rlen p) l -> 0 <= total_len l.
Proof. unfold total_len; induction 1; simpl; lia. Qed.

(* ---------- one row cut to an interval ---------- *)

Definition row_cut (mx a b : Z) (r : row) : row :=
  mkRow (rid r) (rsos r && (a =? 0) && (0 <? b) && (0 <? mx)) (reos r && (a <? rlen r) && (rlen r <=? b))
        (Z.max 0 (Z.min (rlen r) b - a)) (rch r).

Lemma index_slice_cut c rs mx a b : nonneg rs -> is_max_len rs mx -> 0 <= a <= b ->
  index_length (of_rows c rs) (LSlice (mkSlice (Some a) (Some b) None))
  = Ok (of_rows c (map (row_cut mx a b) rs)).
Proof.
  intros Hnn Hmax Hab. pose proof (is_max_len_nonneg _ _ Hnn Hmax) as Hmx.
  transitivity (index_length (of_rows c rs) (LSlice (mkSlice (Some a) (Some b) (Some 1)))); [reflexivity|].
  rewrite (index_slice_raw c rs mx) by (auto; lia).
  change (1 =? 1) with true. cbv iota. cbv zeta.
  f_equal. apply of_rows_ext. intros r Hr.
  assert (0 <= rlen r) by (unfold nonneg in Hnn; rewrite Forall_forall in Hnn; auto).
  assert (rlen r <= mx) by (apply Hmax; auto).
  unfold slice_lo, slice_hi, slice_end.
  replace (a <? 0) with false by lia. replace (b <? 0) with false by lia.
  unfold row_cut, clip. f_equal; lia.
Qed.

Lemma chain_le a bs e : chain a bs e -> a <= e.
Proof. revert a; induction bs as [|[x y] t IH]; simpl; intros a; [lia|]. intros (-> & H & H2). apply IH in H2. lia. Qed.

Lemma chain_app a bs1 bs2 e : chain a (bs1 ++ bs2) e <-> exists m, chain a bs1 m /\ chain m bs2 e.
Proof.
  revert a; induction bs1 as [|[x y] t IH]; simpl; intros a.
  - split; [intros; exists a; auto|intros (m & -> & H); auto].
  - rewrite IH. firstorder.
Qed.

Lemma chain_firstn a bs e j x y : chain a bs e -> nth_error bs j = Some (x, y) ->
  chain a (firstn j bs) x /\ chain a (firstn (S j) bs) y /\ x <= y /\ a <= x.
Proof.
  revert a j; induction bs as [|[u v] t IH]; intros a j; [destruct j; discriminate|].
  destruct j; cbn [nth_error firstn chain].
  - intros (-> & H & H2) [= <- <-]. repeat split; auto; lia.
  - intros (-> & H & H2) Hn. destruct (IH _ _ H2 Hn) as (A & B & C & D). repeat split; auto; lia.
Qed.

Lemma cut_total mx r : 0 <= rlen r -> forall bs a e, 0 <= a -> chain a bs e ->
  total_len (map (fun p => row_cut mx (fst p) (snd p) r) bs) = Z.max 0 (Z.min (rlen r) e - a).
Proof.
  intros Hr. unfold total_len; induction bs as [|[x y] t IH]; intros a e Ha; cbn [chain map zsum fold_right].
  - intros ->. cbn. lia.
  - intros (-> & H & H2). rewrite map_map in *. change (fold_right Z.add 0) with zsum.
    rewrite (IH y e) by (auto; lia). cbn [fst snd rlen row_cut].
    pose proof (chain_le _ _ _ H2). lia.
Qed.

Lemma sos_count_none mx r : forall bs a e, 0 < a -> chain a bs e ->
  filter rsos (map (fun p => row_cut mx (fst p) (snd p) r) bs) = [].
Proof.
  induction bs as [|[x y] t IH]; intros a e Ha; cbn [chain map filter]; auto.
  intros (-> & H & H2). cbn [row_cut rsos fst snd]. replace (a =? 0) with false by lia.
  rewrite andb_false_r. simpl. eapply IH; [|eauto]; lia.
Qed.

Lemma sos_count_mx0 r : forall bs,
  filter rsos (map (fun p => row_cut 0 (fst p) (snd p) r) bs) = [].
Proof.
  induction bs as [|[x y] t IH]; cbn [map filter]; auto.
  cbn [row_cut rsos]. change (0 <? 0) with false. rewrite andb_false_r. auto.
Qed.

Lemma sos_count mx r : 0 <= mx -> forall bs e, chain 0 bs e -> mx <= e ->
  length (filter rsos (map (fun p => row_cut mx (fst p) (snd p) r) bs))
  = (if rsos r && (0 <? mx) then 1%nat else 0%nat).
Proof.
  intros Hmx. destruct (Z.eq_dec mx 0) as [->|Hne].
  { intros. rewrite sos_count_mx0. now rewrite andb_false_r. }
  replace (0 <? mx) with true by lia. rewrite andb_true_r.
  induction bs as [|[x y] t IH]; intros e Hc He.
  - simpl in Hc. lia.
  - cbn [chain] in Hc. destruct Hc as (-> & H & H2). cbn [map filter row_cut rsos fst snd].
    replace (0 <? mx) with true by lia. rewrite andb_true_r. change (0 =? 0) with true. rewrite andb_true_r.
    destruct (Z.eq_dec y 0) as [->|Hy].
    + replace (0 <? 0) with false by lia. rewrite andb_false_r. eauto.
    + replace (0 <? y) with true by lia. rewrite andb_true_r.
      rewrite (sos_count_none mx r t y e) by (auto; lia). destruct (rsos r); reflexivity.
Qed.

Lemma map_firstn {A B} (f : A -> B) n l : map f (firstn n l) = firstn n (map f l).
Proof. revert l; induction n; intros [|a l]; simpl; auto. now rewrite IHn. Qed.

Lemma cut_pieces_of mx r bs e : 0 <= rlen r <= mx -> chain 0 bs e -> mx <= e ->
  pieces_of r mx (map (fun p => row_cut mx (fst p) (snd p) r) bs).
Proof.
  intros Hr Hc He. unfold pieces_of.
  assert (HF : Forall (fun p => rid p = rid r /\ rch p = rch r /\ 0 <= rlen p)
                 (map (fun p => row_cut mx (fst p) (snd p) r) bs)).
  { apply Forall_forall. intros p Hp. apply in_map_iff in Hp as (q & <- & _). cbn. repeat split; lia. }
  split; [exact HF|]. split.
  { rewrite (cut_total mx r) with (a := 0) (e := e) by (auto; lia). lia. }
  assert (Hj : forall j p, nth_error (map (fun p => row_cut mx (fst p) (snd p) r) bs) j = Some p ->
     exists x y, p = row_cut mx x y r /\ 0 <= x <= y /\
       total_len (firstn j (map (fun p => row_cut mx (fst p) (snd p) r) bs)) = Z.min (rlen r) x /\
       total_len (firstn (S j) (map (fun p => row_cut mx (fst p) (snd p) r) bs)) = Z.min (rlen r) y).
  { intros j p Hp. rewrite nth_error_map in Hp. destruct (nth_error bs j) as [[x y]|] eqn:E; [|discriminate].
    simpl in Hp; injection Hp as <-. exists x, y.
    destruct (chain_firstn 0 bs e j x y Hc E) as (A & B & C & D).
    rewrite <- !map_firstn.
    rewrite (cut_total mx r ltac:(lia) (firstn j bs) 0 x) by (auto; lia).
    rewrite (cut_total mx r ltac:(lia) (firstn (S j) bs) 0 y) by (auto; lia).
    repeat split; auto; lia. }
  split; [|split; [|split]].
  - intros j p Hp. destruct (Hj j p Hp) as (x & y & -> & Hxy & E1 & E2). rewrite E2. cbn [reos rlen row_cut].
    destruct (reos r); simpl; [|intuition discriminate]. lia.
  - intros j p Hp. destruct (Hj j p Hp) as (x & y & -> & Hxy & E1 & E2). rewrite E1. cbn [rsos row_cut].
    destruct (rsos r); simpl; [|discriminate]. intros; split; auto; lia.
  - intros Hpos j p Hp. destruct (Hj j p Hp) as (x & y & -> & Hxy & E1 & E2). rewrite E1. cbn [rsos rlen row_cut].
    destruct (rsos r); simpl; [|intuition discriminate]. lia.
  - apply sos_count with e; auto; lia.
Qed.

(* ---------- C06: split_length ---------- *)

Lemma cumsum_from_chain : forall secs acc, Forall (fun k => 0 <= k) secs ->
  chain acc (zip (acc :: init (cumsum_from acc secs)) (cumsum_from acc secs)) (acc + zsum secs).
Proof.
  induction secs as [|k secs IH]; intros acc HF.
  - simpl; lia.
  - inversion_clear HF. cbn [cumsum_from].
    assert (E : zip (acc :: init ((acc + k) :: cumsum_from (acc + k) secs)) ((acc + k) :: cumsum_from (acc + k) secs)
              = (acc, acc + k) :: zip ((acc + k) :: init (cumsum_from (acc + k) secs)) (cumsum_from (acc + k) secs)).
    { destruct secs; reflexivity. }
    rewrite E. cbn [chain]. repeat split; try lia.
    replace (acc + zsum (k :: secs)) with (acc + k + zsum secs) by (cbn [zsum fold_right]; unfold zsum; lia).
    apply IH; auto.
Qed.

Lemma split_list_bounds secs mx : mx <= zsum secs ->
  split_bounds (SList secs) mx = Ok (zip (0 :: init (cumsum secs)) (cumsum secs)).
Proof. intros; unfold split_bounds. now replace (zsum secs <? mx) with false by lia. Qed.

Lemma split_int_bounds k mx : 1 <= k ->
  split_bounds (SInt k) mx = Ok (map (fun i => (i, Z.min (i + k) mx)) (py_range 0 mx k)).
Proof. intros; unfold split_bounds. now replace (k =? 0) with false by lia. Qed.

Lemma int_chain k mx : 1 <= k -> forall n a, 0 <= a <= mx -> (Z.to_nat (mx - a) <= n)%nat ->
  chain a (map (fun i => (i, Z.min (i + k) mx)) (py_range a mx k)) mx.
Proof.
  intros Hk; induction n; intros a Ha Hn.
  - rewrite py_range_nil by lia. simpl; lia.
  - destruct (Z.eq_dec a mx) as [->|Hne].
    + rewrite py_range_nil by lia. simpl; lia.
    + rewrite py_range_cons by lia. cbn [map chain]. repeat split; try lia.
      destruct (Z_le_gt_dec (a + k) mx).
      * replace (Z.min (a + k) mx) with (a + k) by lia. apply IHn; lia.
      * rewrite py_range_nil by lia. simpl; lia.
Qed.

Lemma split_bounds_chain mx s : 0 <= mx -> valid_sections mx s ->
  exists bs e, split_bounds s mx = Ok bs /\ chain 0 bs e /\ mx <= e.
Proof.
  intros Hmx Hv; destruct s as [k|l]; cbn [valid_sections] in Hv.
  - exists (map (fun i => (i, Z.min (i + k) mx)) (py_range 0 mx k)), mx.
    rewrite split_int_bounds by lia. repeat split; auto; try lia.
    apply int_chain with (Z.to_nat mx); lia.
  - exists (zip (0 :: init (cumsum l)) (cumsum l)), (zsum l).
    rewrite split_list_bounds by tauto. repeat split; auto; try tauto.
    apply (cumsum_from_chain l 0). tauto.
Qed.

Lemma chain_In a bs e : chain a bs e -> 0 <= a -> forall p, In p bs -> 0 <= fst p <= snd p.
Proof.
  revert a; induction bs as [|[x y] t IH]; simpl; intros a Hc Ha p Hp; [tauto|].
  destruct Hc as (-> & H & H2). destruct Hp as [<-|Hp]; [simpl; lia|]. eapply IH; [eauto|lia|auto].
Qed.

Lemma split_length_raw c rs mx s bs e : nonneg rs -> is_max_len rs mx ->
  split_bounds s mx = Ok bs -> chain 0 bs e ->
  split_length (of_rows c rs) s
  = Ok (map (of_rows c) (map (fun p => map (row_cut mx (fst p) (snd p)) rs) bs)).
Proof.
  intros Hnn Hmax Hb Hc. unfold split_length. rewrite (max_length_of_rows _ _ _ Hmax). cbn [bind].
  rewrite Hb. cbn [bind]. rewrite map_map. apply mapM_ok.
  intros p Hp. apply index_slice_cut; auto. eapply chain_In; eauto; lia.
Qed.

Lemma column_cuts mx rs bs i r : nth_error rs i = Some r ->
  column i (map (fun p => map (row_cut mx (fst p) (snd p)) rs) bs)
  = map (fun p => row_cut mx (fst p) (snd p) r) bs.
Proof.
  intros H. unfold column. induction bs as [|p bs IH]; simpl; auto.
  rewrite nth_error_map, H. simpl. now rewrite IH.
Qed.

Lemma split_length_pieces c rs mx s : nonneg rs -> is_max_len rs mx -> valid_sections mx s ->
  exists pieces, split_length (of_rows c rs) s = Ok (map (of_rows c) pieces)
    /\ Forall (fun p => length p = length rs) pieces
    /\ (forall i r, nth_error rs i = Some r -> length (column i pieces) = length pieces /\ pieces_of r mx (column i pieces)).
Proof.
  intros Hnn Hmax Hv. pose proof (is_max_len_nonneg _ _ Hnn Hmax) as Hmx.
  destruct (split_bounds_chain mx s Hmx Hv) as (bs & e & Hb & Hc & He).
  exists (map (fun p => map (row_cut mx (fst p) (snd p)) rs) bs). split; [|split].
  - eapply split_length_raw; eauto.
  - apply Forall_forall. intros x Hx. apply in_map_iff in Hx as (p & <- & _). now rewrite map_length.
  - intros i r Hi. rewrite (column_cuts mx rs bs i r Hi). split.
    + now rewrite !map_length.
    + eapply cut_pieces_of; eauto. split.
      * unfold nonneg in Hnn; rewrite Forall_forall in Hnn. apply Hnn. eapply nth_error_In; eauto.
      * apply Hmax. eapply nth_error_In; eauto.
Qed.

(** Exact size of the j-th piece. *)
Lemma zip_nth {A B} (l1 : list A) (l2 : list B) j :
  nth_error (zip l1 l2) j = match nth_error l1 j, nth_error l2 j with Some a, Some b => Some (a, b) | _, _ => None end.
Proof.
  revert l2 j; induction l1 as [|a l1 IH]; intros [|b l2] [|j]; simpl; auto.
  destruct (nth_error l1 j); auto.
Qed.

Lemma cumsum_from_nth secs : forall acc j, (j < length secs)%nat ->
  nth_error (zip (acc :: init (cumsum_from acc secs)) (cumsum_from acc secs)) j
  = Some (acc + zsum (firstn j secs), acc + zsum (firstn (S j) secs)).
Proof.
  induction secs as [|k secs IH]; intros acc j Hj; [simpl in Hj; lia|].
  cbn [cumsum_from].
  assert (E : zip (acc :: init ((acc + k) :: cumsum_from (acc + k) secs)) ((acc + k) :: cumsum_from (acc + k) secs)
            = (acc, acc + k) :: zip ((acc + k) :: init (cumsum_from (acc + k) secs)) (cumsum_from (acc + k) secs)).
  { destruct secs; reflexivity. }
  rewrite E. destruct j; cbn [nth_error].
  - cbn. f_equal; f_equal; lia.
  - rewrite IH by (simpl in Hj; lia). rewrite !firstn_cons. cbn [zsum fold_right].
    change (fold_right Z.add 0) with zsum. f_equal; f_equal; lia.
Qed.

Lemma cumsum_from_length acc secs : length (cumsum_from acc secs) = length secs.
Proof. revert acc; induction secs; simpl; auto. Qed.

Lemma py_range_nth st hi k j v : 0 < k -> nth_error (py_range st hi k) j = Some v -> v = st + Z.of_nat j * k.
Proof.
  unfold py_range. rewrite nth_error_map. intros Hk. destruct (nth_error (seq _ _) j) eqn:E; [|discriminate].
  simpl. intros [= <-]. assert (j < range_len st hi k)%nat.
  { rewrite <- (seq_length (range_len st hi k) 0). apply nth_error_Some. congruence. }
  assert (nth_error (seq 0 (range_len st hi k)) j = Some j).
  { rewrite (nth_error_nth' _ 0%nat) by (rewrite seq_length; lia). now rewrite seq_nth. }
  rewrite E in H0. injection H0 as ->. reflexivity.
Qed.

Lemma bounds_length : forall secs acc, length (zip (acc :: init (cumsum_from acc secs)) (cumsum_from acc secs)) = length secs.
Proof.
  induction secs as [|k secs IH]; intros acc; auto. cbn [cumsum_from].
  replace (zip (acc :: init ((acc + k) :: cumsum_from (acc + k) secs)) ((acc + k) :: cumsum_from (acc + k) secs))
    with ((acc, acc + k) :: zip ((acc + k) :: init (cumsum_from (acc + k) secs)) (cumsum_from (acc + k) secs))
    by (destruct secs; reflexivity).
  cbn [length]. f_equal. apply IH.
Qed.

Lemma bounds_nth_lt l j p : nth_error (zip (0 :: init (cumsum l)) (cumsum l)) j = Some p -> (j < length l)%nat.
Proof. intros H. rewrite <- (bounds_length l 0). apply nth_error_Some. unfold cumsum in H. congruence. Qed.

Lemma split_length_sizes c rs mx s : nonneg rs -> is_max_len rs mx -> valid_sections mx s ->
  exists pieces, split_length (of_rows c rs) s = Ok (map (of_rows c) pieces)
    /\ zlen pieces = match s with SInt k => (mx + k - 1) / k | SList l => zlen l end
    /\ (forall j i p r q, nth_error pieces j = Some p -> nth_error rs i = Some r -> nth_error p i = Some q ->
          rlen q = Z.max 0 (Z.min (rlen r) (piece_hi s j) - piece_lo s j)).
Proof.
  intros Hnn Hmax Hv. pose proof (is_max_len_nonneg _ _ Hnn Hmax) as Hmx.
  destruct (split_bounds_chain mx s Hmx Hv) as (bs & e & Hb & Hc & He).
  exists (map (fun p => map (row_cut mx (fst p) (snd p)) rs) bs). split; [|split].
  - eapply split_length_raw; eauto.
  - rewrite zlen_map. destruct s as [k|l]; cbn [valid_sections] in Hv.
    + rewrite split_int_bounds in Hb by lia. injection Hb as <-. rewrite zlen_map, zlen_py_range by lia.
      replace (mx - 0 + k - 1) with (mx + k - 1) by lia.
      assert (0 <= (mx + k - 1) / k) by (apply Z.div_pos; lia). lia.
    + rewrite split_list_bounds in Hb by tauto. injection Hb as <-.
      unfold cumsum. unfold zlen. f_equal.
      apply bounds_length.
  - intros j i p r q Hp Hr Hq. rewrite nth_error_map in Hp.
    destruct (nth_error bs j) as [[x y]|] eqn:E; [|discriminate]. simpl in Hp; injection Hp as <-.
    rewrite nth_error_map, Hr in Hq. simpl in Hq; injection Hq as <-. cbn [rlen row_cut].
    assert (rlen r <= mx) by (apply Hmax; eapply nth_error_In; eauto).
    destruct s as [k|l]; cbn [valid_sections] in Hv.
    + rewrite split_int_bounds in Hb by lia. injection Hb as <-.
      rewrite nth_error_map in E. destruct (nth_error (py_range 0 mx k) j) eqn:E2; [|discriminate].
      simpl in E; injection E as <- <-. apply py_range_nth in E2; [|lia]. subst z.
      unfold piece_hi, piece_lo. lia.
    + rewrite split_list_bounds in Hb by tauto. injection Hb as <-.
      assert (Hjl : (j < length l)%nat) by (eapply bounds_nth_lt; exact E).
      pose proof (eq_trans (eq_sym E) (cumsum_from_nth l 0 j Hjl)) as E3.
      assert (Hx : x = 0 + zsum (firstn j l)) by congruence.
      assert (Hy : y = 0 + zsum (firstn (S j) l)) by congruence.
      subst x y.
      unfold piece_hi, piece_lo. lia.
Qed.

(* ---------- C07: cat_length ---------- *)

Lemma list_eqb_eq {A} (eqb : A -> A -> bool) : (forall a b, eqb a b = true <-> a = b) ->
  forall l1 l2, list_eqb eqb l1 l2 = true <-> l1 = l2.
Proof.
  intros H; induction l1 as [|a l1 IH]; intros [|b l2]; simpl; try (split; congruence).
  rewrite andb_true_iff, H, IH. split; [intros [-> ->]; auto|intros [= -> ->]; auto].
Qed.

Lemma any_true_In l : any_true l = true <-> In true l.
Proof.
  unfold any_true. rewrite existsb_exists. split.
  - intros (x & H & ->); auto.
  - intros H; exists true; auto.
Qed.

Lemma any_true_false l : any_true l = false <-> ~ In true l.
Proof. rewrite <- any_true_In. destruct (any_true l); intuition congruence. Qed.

Lemma cat_length_checks_spec ids0 t :
  cat_length_checks ids0 t = true <->
  (forall i m, nth_error t i = Some m ->
     ids m = ids0 /\ ~ In true (sos m) /\ ((S i < length t)%nat -> ~ In true (eos m))).
Proof.
  induction t as [|m t IH].
  - simpl; split; auto. intros _ i m; destruct i; discriminate.
  - cbn [cat_length_checks]. rewrite !andb_true_iff, IH.
    rewrite (list_eqb_eq String.eqb String.eqb_eq). rewrite negb_true_iff. unfold any_starting at 1. rewrite any_true_false.
    split.
    + intros (((H1 & H2) & H3) & H4) i m' Hi. destruct i; simpl in Hi.
      * injection Hi as <-. repeat split; auto. destruct t; simpl; [lia|].
        intros _. apply negb_true_iff in H3. now apply any_true_false.
      * destruct (H4 _ _ Hi) as (A & B & C). repeat split; auto. intros; apply C; simpl in *; lia.
    + intros H. destruct (H 0%nat m eq_refl) as (A & B & C). repeat split; auto.
      * destruct t as [|m2 t]; auto. apply negb_true_iff. apply any_true_false. apply C. simpl; lia.
      * destruct (H (S i) m0 H0) as (? & ? & ?); auto.
      * destruct (H (S i) m0 H0) as (? & ? & ?); auto.
      * intros; destruct (H (S i) m0 H0) as (? & ? & HC); auto. apply HC; simpl; lia.
Qed.

Lemma all_some_spec {A} (l : list (option A)) :
  match all_some l with
  | Some r => l = map Some r
  | None => exists o, In o l /\ o = None
  end.
Proof.
  induction l as [|o l IH]; simpl; auto.
  destruct o as [a|]; simpl.
  - destruct (all_some l) as [r|].
    + simpl; now f_equal.
    + destruct IH as (o & Ho & E). exists o; auto.
  - exists None; auto.
Qed.

Lemma add_lens_nth a b j : length a = length b -> nth j (add_lens a b) 0 = nth j a 0 + nth j b 0.
Proof.
  unfold add_lens. revert b j; induction a as [|x a IH]; intros [|y b] [|j]; simpl; intros H; try discriminate; auto.
Qed.
Lemma add_lens_length a b : length a = length b -> length (add_lens a b) = length a.
Proof. unfold add_lens. revert b; induction a as [|x a IH]; intros [|y b]; simpl; try discriminate; auto. Qed.

Lemma fold_add_lens ms : forall acc n, length acc = n -> (forall m, In m ms -> length (lens m) = n) ->
  length (fold_left (fun acc m => add_lens acc (lens m)) ms acc) = n /\
  (forall j, nth j (fold_left (fun acc m => add_lens acc (lens m)) ms acc) 0
             = nth j acc 0 + zsum (map (fun m => nth j (lens m) 0) ms)).
Proof.
  induction ms as [|m ms IH]; intros acc n Hn H; simpl.
  - split; auto. intros; lia.
  - assert (Hm : length (lens m) = n) by (apply H; left; auto).
    destruct (IH (add_lens acc (lens m)) n) as [A B].
    + rewrite add_lens_length; congruence.
    + intros; apply H; right; auto.
    + split; auto. intros j. rewrite B, add_lens_nth by congruence. change (fold_right Z.add 0) with zsum. lia.
Qed.

Lemma wf_lens m n : wf m -> length (ids m) = n -> length (lens m) = n /\ length (sos m) = n /\ length (eos m) = n.
Proof. intros (A & B & C & _) <-; auto. Qed.

Lemma last_In {A} (t : list A) d : t <> [] -> In (last t d) t.
Proof.
  induction t as [|a t IH]; intros H; [congruence|]. destruct t as [|b t]; [left; auto|].
  right. apply IH; congruence.
Qed.

Lemma make_meta_ok i s e l c : length s = length i -> length e = length i -> length l = length i ->
  make_meta i s e l c = Ok (mkMeta i s e l c).
Proof. intros A B C; unfold make_meta. rewrite A, B, C, !Nat.eqb_refl. reflexivity. Qed.

Lemma cat_length_ok m0 t : t <> [] -> Forall wf (m0 :: t) -> cat_compatible (m0 :: t) ->
  exists m', cat_length (m0 :: t) = Ok m' /\
    ids m' = ids m0 /\ sos m' = sos m0 /\ eos m' = eos (last t m0) /\ chs m' = chs (last t m0) /\
    length (lens m') = length (ids m0) /\
    (forall j, nth j (lens m') 0 = zsum (map (fun m => nth j (lens m) 0) (m0 :: t))).
Proof.
  intros Ht Hwf (H1 & H2 & H3). rewrite Forall_forall in Hwf.
  assert (Hids : forall m, In m t -> ids m = ids m0).
  { intros m Hm. apply In_nth_error in Hm as (i & Hi). apply (H1 (S i) m m0); auto. }
  destruct (fold_add_lens t (lens m0) (length (ids m0))) as [A B].
  { destruct (wf_lens m0 _ (Hwf m0 (or_introl eq_refl)) eq_refl); auto. }
  { intros m Hm. destruct (wf_lens m (length (ids m0)) (Hwf m (or_intror Hm))); auto. rewrite (Hids m); auto. }
  pose proof (last_In t m0 Ht) as Hl.
  assert (E : cat_length (m0 :: t) =
     make_meta (ids m0) (sos m0) (eos (last t m0))
       (fold_left (fun acc m => add_lens acc (lens m)) t (lens m0)) (chs (last t m0))).
  { unfold cat_length. destruct t as [|m1 t]; [congruence|].
    replace (negb (any_ending m0) && cat_length_checks (ids m0) (m1 :: t)) with true.
    2:{ symmetry. apply andb_true_iff. split.
        - apply negb_true_iff. apply any_true_false. apply (H2 0%nat m0); simpl; auto; lia.
        - apply cat_length_checks_spec. intros i m Hi.
          destruct (H1 (S i) m m0) as [X Y]; auto. repeat split; auto.
          intros Hlt. apply (H2 (S i) m); auto. simpl in *; lia. }
    pose proof (all_some_spec (map chs (m0 :: m1 :: t))) as HS.
    destruct (all_some (map chs (m0 :: m1 :: t))) as [cs|] eqn:E.
    - reflexivity.
    - destruct HS as (o & Ho & ->). apply in_map_iff in Ho as (m & Hm & Hin).
      destruct H3 as [H3|H3]; [exfalso; apply (H3 m); auto|].
      replace (forallb _ _) with true.
      2:{ symmetry. apply forallb_forall. intros x Hx. now rewrite (H3 x Hx). }
      rewrite (H3 (last (m1 :: t) m0)); auto. right; auto. }
  eexists; split; [rewrite E; apply make_meta_ok|].
  - apply (wf_lens m0 _ (Hwf m0 (or_introl eq_refl)) eq_refl).
  - assert (Hle : length (ids (last t m0)) = length (ids m0)) by (now rewrite Hids).
    apply (wf_lens _ _ (Hwf _ (or_intror Hl)) Hle).
  - auto.
  - cbn. repeat split; auto.
Qed.

Lemma cat_length_bad m0 t : t <> [] -> ~ cat_compatible (m0 :: t) -> cat_length (m0 :: t) = Err ValueError.
Proof.
  intros Ht Hn. unfold cat_length. destruct t as [|m1 t]; [congruence|].
  destruct (negb (any_ending m0) && cat_length_checks (ids m0) (m1 :: t)) eqn:E; auto.
  apply andb_true_iff in E as [E1 E2].
  assert (HE : ~ In true (eos m0)) by (apply any_true_false; now apply negb_true_iff).
  rewrite cat_length_checks_spec in E2.
  pose proof (all_some_spec (map chs (m0 :: m1 :: t))) as HS.
  assert (Hrest : (forall i m m0', nth_error (m0 :: m1 :: t) i = Some m -> nth_error (m0 :: m1 :: t) 0 = Some m0' ->
                     i <> 0%nat -> ids m = ids m0' /\ ~ In true (sos m)) /\
    (forall i m, nth_error (m0 :: m1 :: t) i = Some m -> (S i < length (m0 :: m1 :: t))%nat -> ~ In true (eos m))).
  { split.
    - intros i m m0' Hi H0 Hne. injection H0 as <-. destruct i; [congruence|]. cbn [nth_error] in Hi.
      destruct (E2 _ _ Hi) as (A & B & _); auto.
    - intros i m Hi Hlt. destruct i; cbn [nth_error] in Hi; [injection Hi as <-; auto|].
      destruct (E2 _ _ Hi) as (_ & _ & C). apply C. simpl in *; lia. }
  destruct (all_some (map chs (m0 :: m1 :: t))) as [cs|] eqn:E.
  - exfalso. apply Hn. split; [apply Hrest|]. split; [apply Hrest|]. left. intros m Hm HN.
    assert (HI : In (chs m) (map chs (m0 :: m1 :: t))) by (apply in_map; auto).
    rewrite HS in HI. apply in_map_iff in HI as (x & Hx & _). congruence.
  - destruct (forallb _ _) eqn:EF; auto.
    exfalso. apply Hn. split; [apply Hrest|]. split; [apply Hrest|]. right. intros m Hm.
    rewrite forallb_forall in EF. specialize (EF _ Hm). destruct (chs m); [discriminate|auto].
Qed.

(* ---------- C08: round trip along length ---------- *)

(** Intervals of positive size whose last one starts before n. *)
Lemma cuts_not_last_no_eos mx n rs bs a e j p : (forall r, In r rs -> rlen r = n) ->
  chain a bs e -> (forall q, In q bs -> fst q < n) -> nth_error bs j = Some p -> (S j < length bs)%nat ->
  ~ In true (eos (of_rows false (map (row_cut mx (fst p) (snd p)) rs))).
Proof.
  intros Hn Hc Hlt Hj Hl Hin. cbn [eos of_rows] in Hin. rewrite map_map in Hin.
  apply in_map_iff in Hin as (r & Hr & Hi). cbn [reos row_cut] in Hr.
  assert (snd p < n).
  { revert a j p Hc Hj Hl Hr. clear Hi. induction bs as [|[x y] t IH]; intros a j p Hc Hj Hl Hr; [simpl in Hl; lia|].
    cbn [chain] in Hc. destruct Hc as (-> & H & H2). destruct j; cbn [nth_error] in Hj.
    - injection Hj as <-. destruct t as [|[u v] t]; [simpl in Hl; lia|]. cbn [chain] in H2.
      destruct H2 as (-> & _). specialize (Hlt (y, v)). simpl in *. apply Hlt; auto.
    - eapply IH; eauto; [intros; apply Hlt; right; auto|simpl in Hl; lia]. }
  rewrite (Hn r Hi) in Hr. lia.
Qed.

Lemma last_map {A B} (f : A -> B) l d : last (map f l) (f d) = f (last l d).
Proof. induction l as [|a l IH]; simpl; auto. destruct l; simpl in *; auto. Qed.

Lemma last_cons_default {A} (t : list A) a d : t <> [] -> last t a = last (a :: t) d.
Proof.
  induction t as [|b t IH]; intros H; [congruence|]. destruct t as [|b2 t]; [reflexivity|].
  change (last (b :: b2 :: t) a) with (last (b2 :: t) a). 
  change (last (a :: b :: b2 :: t) d) with (last (b2 :: t) d).
  clear. revert b2; induction t; intros; [reflexivity|]. apply (IHt a0).
Qed.

Lemma chain_last a bs e d : chain a bs e -> bs <> [] -> snd (last bs d) = e.
Proof.
  revert a; induction bs as [|[x y] t IH]; intros a Hc Hne; [congruence|].
  cbn [chain] in Hc. destruct Hc as (-> & H & H2). destruct t as [|q t].
  - simpl in *; auto.
  - change (last ((a, y) :: q :: t) d) with (last (q :: t) d). eapply IH; eauto; congruence.
Qed.

Lemma chain_last_fst a bs e d : chain a bs e -> bs <> [] -> fst (last bs d) <= e.
Proof.
  revert a; induction bs as [|[x y] t IH]; intros a Hc Hne; [congruence|].
  cbn [chain] in Hc. destruct Hc as (-> & H & H2). destruct t as [|q t].
  - simpl in *; lia.
  - change (last ((a, y) :: q :: t) d) with (last (q :: t) d). eapply IH; eauto; congruence.
Qed.

Lemma meta_ext m1 m2 : ids m1 = ids m2 -> sos m1 = sos m2 -> eos m1 = eos m2 -> lens m1 = lens m2 -> chs m1 = chs m2 -> m1 = m2.
Proof. destruct m1, m2; simpl; intros; subst; reflexivity. Qed.

Lemma chs_of_rows_map (c : bool) rs mx p : chs (of_rows c (map (row_cut mx (fst p) (snd p)) rs)) = chs (of_rows c rs).
Proof. cbn [chs of_rows]. rewrite map_map. reflexivity. Qed.

Lemma roundtrip_chain c rs n bs e : 0 < n -> rs <> [] -> (forall r, In r rs -> rlen r = n) ->
  chain 0 bs e -> n <= e -> (forall q, In q bs -> fst q < n /\ fst q < snd q) ->
  cat_length (map (of_rows c) (map (fun p => map (row_cut n (fst p) (snd p)) rs) bs)) = Ok (of_rows c rs).
Proof.
  intros Hn Hne Hlen Hc He Hbs.
  destruct bs as [|[x0 y0] t]. { simpl in Hc. lia. }
  assert (Hx0 : x0 = 0) by (cbn [chain] in Hc; tauto). subst x0.
  destruct t as [|p1 t].
  - (* one piece *)
    simpl. f_equal. unfold clone. f_equal. simpl in Hc. destruct Hc as (_ & H & <-).
    transitivity (map (fun r : row => r) rs); [|apply map_id].
    apply map_ext_in. intros r Hr. specialize (Hlen r Hr). destruct r as [i s e' l ch]. cbn in Hlen. subst l.
    unfold row_cut. cbn [rid rsos reos rlen rch]. destruct (Hbs (0, y0)) as [_ H0]; [left; auto|]. simpl in H0.
    replace (0 =? 0) with true by lia. replace (0 <? y0) with true by lia. replace (0 <? n) with true by lia.
    replace (n <=? y0) with true by lia. rewrite !andb_true_r. f_equal. lia.
  - set (pieces := map (of_rows c) (map (fun p => map (row_cut n (fst p) (snd p)) rs) ((0, y0) :: p1 :: t))).
    set (m0 := of_rows c (map (row_cut n 0 y0) rs)).
    set (tl := map (of_rows c) (map (fun p => map (row_cut n (fst p) (snd p)) rs) (p1 :: t))).
    assert (Hpi : pieces = m0 :: tl) by reflexivity.
    assert (Htl : tl <> []) by discriminate.
    assert (Hwf : Forall wf (m0 :: tl)).
    { rewrite <- Hpi. apply Forall_forall. intros m Hm. apply in_map_iff in Hm as (q & <- & _). apply of_rows_wf. }
    assert (Hnth : forall i m, nth_error (m0 :: tl) i = Some m ->
              exists p, nth_error ((0, y0) :: p1 :: t) i = Some p /\ m = of_rows c (map (row_cut n (fst p) (snd p)) rs)).
    { intros i m Hi. rewrite <- Hpi in Hi. unfold pieces in Hi. rewrite map_map, nth_error_map in Hi.
      destruct (nth_error ((0, y0) :: p1 :: t) i) as [p|] eqn:E; [|discriminate]. simpl in Hi. injection Hi as <-.
      exists p; auto. }
    assert (Hcomp : cat_compatible (m0 :: tl)).
    { split; [|split].
      - intros i m m0' Hi H0 Hi0. injection H0 as <-. destruct (Hnth i m Hi) as (p & Hp & ->). split.
        + cbn [ids of_rows m0]. unfold m0. cbn [ids of_rows]. rewrite !map_map. reflexivity.
        + cbn [sos of_rows]. rewrite map_map. intros Hin. apply in_map_iff in Hin as (r & Hr & Hi').
          cbn [rsos row_cut] in Hr. destruct i; [congruence|].
          assert (0 < fst p).
          { cbn [chain] in Hc. destruct Hc as (_ & Hy & Hc2).
            destruct (Hbs (0, y0)) as [_ Hy0]; [left; auto|]. simpl in Hy0. cbn [nth_error] in Hp.
            assert (y0 <= fst p).
            { destruct (chain_firstn y0 (p1 :: t) e i (fst p) (snd p)) as (_ & _ & _ & HH); auto.
              rewrite <- surjective_pairing. auto. }
            lia. }
          lia.
      - intros i m Hi Hlt. destruct (Hnth i m Hi) as (p & Hp & ->).
        assert (Hl2 : (S i < length ((0%Z, y0) :: p1 :: t))%nat).
        { unfold tl in Hlt. simpl in Hlt. rewrite !map_length in Hlt. simpl. lia. }
        pose proof (cuts_not_last_no_eos n n rs ((0, y0) :: p1 :: t) 0 e i p Hlen Hc) as HH.
        cbn [eos of_rows] in *. apply HH; auto. intros; apply Hbs; auto.
      - destruct c; [left|right]; intros m Hm; rewrite <- Hpi in Hm; apply in_map_iff in Hm as (q & <- & _);
          cbn; congruence. }
    destruct (cat_length_ok m0 tl Htl Hwf Hcomp) as (m' & E & A1 & A2 & A3 & A4 & A5 & A6).
    rewrite Hpi, E. f_equal.
    assert (Hlast : exists p, last tl m0 = of_rows c (map (row_cut n (fst p) (snd p)) rs) /\ snd p = e /\ fst p < n).
    { set (F := fun p : Z * Z => of_rows c (map (row_cut n (fst p) (snd p)) rs)).
      exists (last ((0, y0) :: p1 :: t) (0, y0)). split; [|split].
      - rewrite (last_cons_default tl m0 m0 Htl). rewrite <- Hpi. unfold pieces. rewrite map_map.
        change m0 with (F (0, y0)). apply (last_map F).
      - apply chain_last with 0; auto; discriminate.
      - apply Hbs. apply last_In. discriminate. }
    destruct Hlast as (pl & El & Ee & Hpl).
    apply meta_ext.
    + rewrite A1. unfold m0. cbn [ids of_rows]. rewrite map_map. reflexivity.
    + rewrite A2. unfold m0. cbn [sos of_rows]. rewrite map_map. apply map_ext_in. intros r Hr.
      cbn [rsos row_cut]. destruct (Hbs (0, y0)) as [_ H0]; [left; auto|]. simpl in H0.
      replace (0 =? 0) with true by lia. replace (0 <? y0) with true by lia. replace (0 <? n) with true by lia.
      now rewrite !andb_true_r.
    + rewrite A3, El. cbn [eos of_rows]. rewrite map_map. apply map_ext_in. intros r Hr.
      cbn [reos row_cut]. rewrite (Hlen r Hr). replace (fst pl <? n) with true by lia.
      replace (n <=? snd pl) with true by lia. now rewrite !andb_true_r.
    + apply nth_ext with 0 0.
      * rewrite A5. unfold m0. cbn [ids lens of_rows]. now rewrite !map_length.
      * intros j Hj. rewrite A6. rewrite <- Hpi. unfold pieces. rewrite !map_map.
        rewrite A5 in Hj. unfold m0 in Hj. cbn [ids of_rows] in Hj. rewrite !map_length in Hj.
        destruct (nth_error rs j) as [r|] eqn:Er; [|apply nth_error_None in Er; lia].
        assert (Hr : In r rs) by (eapply nth_error_In; eauto).
        transitivity (zsum (map (fun p => rlen (row_cut n (fst p) (snd p) r)) ((0, y0) :: p1 :: t))).
        { f_equal. apply map_ext. intros p. cbn [lens of_rows]. rewrite map_map.
          apply nth_error_nth. rewrite nth_error_map, Er. reflexivity. }
        pose proof (cut_total n r ltac:(rewrite (Hlen r Hr); lia) ((0, y0) :: p1 :: t) 0 e ltac:(lia) Hc) as HT.
        unfold total_len in HT. rewrite map_map in HT. rewrite HT.
        cbn [lens of_rows]. symmetry.
        transitivity (rlen r); [|rewrite (Hlen r Hr); lia].
        apply nth_error_nth. rewrite nth_error_map, Er. reflexivity.
    + rewrite A4, El. apply chs_of_rows_map.
Qed.

Lemma const_max rs n : rs <> [] -> (forall r, In r rs -> rlen r = n) -> is_max_len rs n.
Proof.
  intros Hne H. destruct rs as [|r rs]; [congruence|]. split.
  - exists r; split; [left; auto|apply H; left; auto].
  - intros x Hx. rewrite (H x Hx). lia.
Qed.

Lemma const_nonneg rs n : 0 <= n -> (forall r, In r rs -> rlen r = n) -> nonneg rs.
Proof. intros Hn H. apply Forall_forall. intros r Hr. rewrite (H r Hr). auto. Qed.

Lemma roundtrip_int c rs n k : 0 < n -> rs <> [] -> (forall r, In r rs -> rlen r = n) -> 1 <= k ->
  bind (split_length (of_rows c rs) (SInt k)) cat_length = Ok (of_rows c rs).
Proof.
  intros Hn Hne Hlen Hk.
  rewrite (split_length_raw c rs n (SInt k) _ n (const_nonneg rs n ltac:(lia) Hlen) (const_max rs n Hne Hlen)
             (split_int_bounds k n Hk)).
  2:{ apply int_chain with (Z.to_nat n); lia. }
  cbn [bind]. apply roundtrip_chain with n; auto; try lia.
  - apply int_chain with (Z.to_nat n); lia.
  - intros q Hq. apply in_map_iff in Hq as (i & <- & Hi). apply py_range_In in Hi; try lia. simpl. lia.
Qed.

Lemma roundtrip_list c rs n secs : 0 < n -> rs <> [] -> (forall r, In r rs -> rlen r = n) ->
  Forall (fun k => 0 < k) secs -> n <= zsum secs -> zsum (removelast secs) < n ->
  bind (split_length (of_rows c rs) (SList secs)) cat_length = Ok (of_rows c rs).
Proof.
  intros Hn Hne Hlen Hpos Hge Hlt.
  assert (Hnn : Forall (fun k => 0 <= k) secs) by (eapply Forall_impl; [|exact Hpos]; simpl; intros; lia).
  assert (Hc : chain 0 (zip (0 :: init (cumsum secs)) (cumsum secs)) (zsum secs)) by (apply (cumsum_from_chain secs 0 Hnn)).
  rewrite (split_length_raw c rs n (SList secs) _ (zsum secs) (const_nonneg rs n ltac:(lia) Hlen) (const_max rs n Hne Hlen)
             (split_list_bounds secs n Hge) Hc).
  cbn [bind]. apply roundtrip_chain with (zsum secs); auto.
  intros q Hq. apply In_nth_error in Hq as (j & Hj).
  assert (Hjl : (j < length secs)%nat) by (eapply bounds_nth_lt; exact Hj).
  pose proof (eq_trans (eq_sym Hj) (cumsum_from_nth secs 0 j Hjl)) as E3.
  assert (Hq1 : fst q = 0 + zsum (firstn j secs)) by (replace q with (0 + zsum (firstn j secs), 0 + zsum (firstn (S j) secs)) by congruence; reflexivity).
  assert (Hq2 : snd q = 0 + zsum (firstn (S j) secs)) by (replace q with (0 + zsum (firstn j secs), 0 + zsum (firstn (S j) secs)) by congruence; reflexivity).
  rewrite Hq1, Hq2. clear E3 Hq1 Hq2. cbn [fst snd].
  assert (Hmono : forall l i, Forall (fun k => 0 < k) l -> (i < length l)%nat ->
             zsum (firstn i l) <= zsum (removelast l) /\ zsum (firstn i l) < zsum (firstn (S i) l)).
  { clear. induction l as [|a l IH]; intros i HF Hi; [simpl in Hi; lia|].
    inversion_clear HF.
    assert (Hrl : 0 <= zsum (removelast (a :: l))).
    { assert (forall l, Forall (fun k => 0 < k) l -> 0 <= zsum (removelast l)).
      { clear. induction 1 as [|x l Hx HF IH]; [simpl; lia|]. destruct l; [simpl; lia|].
        change (removelast (x :: z :: l)) with (x :: removelast (z :: l)). cbn [zsum fold_right].
        change (fold_right Z.add 0) with zsum. lia. }
      apply H1. constructor; auto. }
    destruct i.
    - simpl firstn. cbn [zsum fold_right]. split; [auto|lia].
    - destruct l as [|b l]; [simpl in Hi; lia|].
      destruct (IH i) as [A B]; auto. { simpl in *; lia. }
      change (removelast (a :: b :: l)) with (a :: removelast (b :: l)).
      rewrite !firstn_cons. cbn [zsum fold_right]. change (fold_right Z.add 0) with zsum.
      cbn [zsum fold_right] in A, B. split; [lia|]. rewrite firstn_cons in B.
      cbn [zsum fold_right] in B. change (fold_right Z.add 0) with zsum in B. lia. }
  destruct (Hmono secs j Hpos Hjl). lia.
Qed.

(** A stream that ends inside an earlier piece makes concatenation refuse. *)
Lemma roundtrip_refuses c rs mx s bs e : nonneg rs -> is_max_len rs mx ->
  split_bounds s mx = Ok bs -> chain 0 bs e -> (2 <= length bs)%nat ->
  (exists r, In r rs /\ reos r = true /\ 0 < rlen r <= fst (last bs (0, 0))) ->
  bind (split_length (of_rows c rs) s) cat_length = Err ValueError.
Proof.
  intros Hnn Hmax Hb Hc Hlen (r & Hr & Heos & Hrl).
  rewrite (split_length_raw c rs mx s bs e Hnn Hmax Hb Hc). cbn [bind].
  destruct bs as [|p0 [|p1 t]]; [simpl in Hlen; lia|simpl in Hlen; lia|].
  cbn [map]. apply cat_length_bad; [discriminate|].
  intros (_ & HE & _).
  (* the piece that contains the last step of r *)
  assert (Hex : exists j p, nth_error (p0 :: p1 :: t) j = Some p /\ fst p < rlen r <= snd p).
  { assert (G : forall bs a, chain a bs e -> 0 <= a -> a < rlen r <= e -> exists j p, nth_error bs j = Some p /\ fst p < rlen r <= snd p).
    { clear. induction bs as [|[x y] t IH]; intros a Hc Ha Hr; cbn [chain] in Hc; [lia|].
      destruct Hc as (-> & H & H2). destruct (Z_le_gt_dec (rlen r) y).
      - exists 0%nat, (a, y). split; auto. simpl; lia.
      - destruct (IH y H2) as (j & p & Hj & Hp); try lia. exists (S j), p. auto. }
    apply (G _ 0 Hc); try lia.
    assert (fst (last (p0 :: p1 :: t) (0, 0)) <= e).
    { eapply chain_last_fst; [exact Hc|discriminate]. }
    lia. }
  destruct Hex as (j & p & Hj & Hp).
  (* it is not the last piece *)
  assert (HjL : (S j < length (p0 :: p1 :: t))%nat).
  { destruct (Nat.lt_ge_cases (S j) (length (p0 :: p1 :: t))); auto.
    assert (Hjlt : (j < length (p0 :: p1 :: t))%nat) by (apply nth_error_Some; congruence).
    assert (p = last (p0 :: p1 :: t) (0, 0)).
    { assert (Ej : j = (length (p0 :: p1 :: t) - 1)%nat) by lia.
      rewrite Ej in Hj. clear -Hj. revert Hj. generalize (p0 :: p1 :: t). intros l.
      induction l as [|a l IH]; [discriminate|]. destruct l as [|b l].
      - simpl. congruence.
      - intros Hj. apply IH. simpl in *. rewrite Nat.sub_0_r in *. auto. }
    subst p. lia. }
  apply (HE j (of_rows c (map (row_cut mx (fst p) (snd p)) rs))).
  - change (of_rows c (map (row_cut mx (fst p0) (snd p0)) rs)
       :: of_rows c (map (row_cut mx (fst p1) (snd p1)) rs)
       :: map (of_rows c) (map (fun p => map (row_cut mx (fst p) (snd p)) rs) t))
     with (map (of_rows c) (map (fun p => map (row_cut mx (fst p) (snd p)) rs) (p0 :: p1 :: t))).
    rewrite map_map, nth_error_map, Hj. reflexivity.
  - cbn [length] in *. rewrite !map_length. lia.
  - cbn [eos of_rows]. rewrite map_map. apply in_map_iff. exists r. split; auto.
    cbn [reos row_cut]. rewrite Heos. lia.
Qed.

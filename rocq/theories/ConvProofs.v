(** Lemmas about streaming convolutions. *)

From Coq Require Import String List ZArith Bool Lia Arith.
From Coq Require Import ZifyBool ZifyNat.
From Verif Require Import Py Meta MetaSpec MetaProofs MetaLenProofs MetaSplitProofs MetaBatchProofs Pad Conv ConvSpec.
Import ListNotations.
Open Scope nat_scope.

Section ConvProofs.
Context {V : Type}.
Implicit Types c : conv_cfg V.

Lemma kernel_width_eq c : valid_cfg c -> kernel_width c = Z.of_nat (kspan c).
Proof. intros (H1 & H2 & H3). unfold kernel_width, kspan. nia. Qed.

Lemma nwin_lt c n i : valid_cfg c -> (i < nwin c n <-> i * strd c + kspan c <= n).
Proof.
  intros (H1 & H2 & H3). unfold nwin. destruct (n <? kspan c) eqn:E.
  - split; intros; [lia|]. nia.
  - assert (kspan c <= n) by lia.
    rewrite Nat.add_1_r, Nat.lt_succ_r.
    split; intros Hi.
    + assert (i * strd c <= n - kspan c); [|lia].
      pose proof (Nat.mul_div_le (n - kspan c) (strd c)). nia.
    + apply Nat.div_le_lower_bound; lia.
Qed.

Lemma nwin_le c n1 n2 : valid_cfg c -> n1 <= n2 -> nwin c n1 <= nwin c n2.
Proof.
  intros Hv H. destruct (Nat.le_gt_cases (nwin c n1) (nwin c n2)) as [|Hc]; auto.
  exfalso. apply (nwin_lt c n1) in Hc; auto.
  assert (nwin c n2 < nwin c n2) by (apply nwin_lt; auto; lia). lia.
Qed.

Lemma output_length_nwin c n : valid_cfg c -> output_length c (Z.of_nat n) = Z.of_nat (nwin c n).
Proof.
  intros Hv. unfold output_length. rewrite kernel_width_eq by auto. destruct Hv as (H1 & H2 & H3).
  unfold nwin. destruct (n <? kspan c) eqn:E.
  - assert ((Z.of_nat n - Z.of_nat (kspan c)) / Z.of_nat (strd c) < 0)%Z; [|lia].
    apply Z.div_lt_upper_bound; lia.
  - rewrite <- Nat2Z.inj_sub by lia. rewrite <- Nat2Z.inj_div.
    generalize ((n - kspan c) / strd c). lia.
Qed.

Lemma nth_pad (l : list V) z k i : nth i (l ++ repeat z k) z = nth i l z.
Proof.
  destruct (Nat.lt_ge_cases i (length l)).
  - now apply app_nth1.
  - rewrite app_nth2 by lia. rewrite (nth_overflow l) by lia.
    destruct (Nat.lt_ge_cases (i - length l) k).
    + apply nth_repeat.
    + apply nth_overflow. rewrite repeat_length. lia.
Qed.

Lemma window_pad c l k i : window c (l ++ repeat (zin c) k) i = window c l i.
Proof. unfold window. apply map_ext. intros. apply nth_pad. Qed.

Lemma window_app c l x i : valid_cfg c -> i * strd c + kspan c <= length l -> window c (l ++ x) i = window c l i.
Proof.
  intros (H1 & H2 & H3) H. unfold window. apply map_ext_in. intros j Hj. apply in_seq in Hj.
  apply app_nth1. unfold kspan in H. nia.
Qed.

Lemma nth_skipn (l : list V) n i z : nth i (skipn n l) z = nth (n + i) l z.
Proof.
  revert l. induction n; intros l; auto. destruct l; simpl; auto. now destruct i.
Qed.

Lemma window_skip c l n i : window c (skipn (n * strd c) l) i = window c l (n + i).
Proof. unfold window. apply map_ext. intros j. rewrite nth_skipn. f_equal. nia. Qed.

Lemma conv_seq_length c l : length (conv_seq c l) = nwin c (length l).
Proof. unfold conv_seq. now rewrite map_length, seq_length. Qed.

Lemma torch_row c n r : torch_conv_row c n r = map (fun i => kfun c (window c r i)) (seq 0 n).
Proof. reflexivity. Qed.

(** The number of windows is additive when the first part is cut at a multiple of the stride. *)
Lemma nwin_add c n m : valid_cfg c -> m * strd c <= n -> m <= nwin c n -> nwin c n = m + nwin c (n - m * strd c).
Proof.
  intros Hv H1 H2.
  destruct (Nat.lt_trichotomy (nwin c n) (m + nwin c (n - m * strd c))) as [Hc|[|Hc]]; auto; exfalso.
  - assert (Hx : nwin c n - m < nwin c (n - m * strd c)) by lia.
    apply nwin_lt in Hx; auto.
    assert (nwin c n < nwin c n); [|lia]. apply nwin_lt; auto.
    replace (nwin c n * strd c) with ((nwin c n - m) * strd c + m * strd c) by nia. lia.
  - apply nwin_lt in Hc; auto.
    assert (nwin c (n - m * strd c) < nwin c (n - m * strd c)); [|lia]. apply nwin_lt; auto. nia.
Qed.

Lemma conv_split c A X : valid_cfg c -> strd c <= kspan c ->
  conv_seq c (A ++ X) = conv_seq c A ++ conv_seq c (skipn (nwin c (length A) * strd c) A ++ X).
Proof.
  intros Hv Hs. set (m := nwin c (length A)).
  assert (Hm : m * strd c <= length A).
  { destruct m as [|k] eqn:E; [lia|]. assert (Hk : k < nwin c (length A)) by (unfold m in E; lia).
    apply nwin_lt in Hk; auto. nia. }
  assert (Hmm : m <= nwin c (length (A ++ X))) by (apply nwin_le; auto; rewrite app_length; lia).
  assert (Hsk : skipn (m * strd c) A ++ X = skipn (m * strd c) (A ++ X)).
  { rewrite skipn_app. replace (m * strd c - length A) with 0 by lia. reflexivity. }
  unfold conv_seq at 1. rewrite (nwin_add c (length (A ++ X)) m) by (auto; rewrite app_length; lia).
  rewrite seq_app, map_app. f_equal.
  - unfold conv_seq. fold m. apply map_ext_in. intros i Hi. apply in_seq in Hi.
    rewrite window_app; auto. apply nwin_lt; auto. fold m. lia.
  - rewrite Hsk. unfold conv_seq. rewrite skipn_length.
    generalize (nwin c (length (A ++ X) - m * strd c)). intros n.
    assert (G : forall k, map (fun i => kfun c (window c (A ++ X) i)) (seq (m + k) n)
            = map (fun i => kfun c (window c (skipn (m * strd c) (A ++ X)) i)) (seq k n)).
    { induction n; intros k; auto. cbn [seq map]. rewrite window_skip. f_equal. rewrite <- Nat.add_succ_r. apply IHn. }
    rewrite <- (G 0). now rewrite Nat.add_0_r.
Qed.

(* ---------- torch.conv1d followed by masking ---------- *)

Lemma zip_map2 {A B C D} (f : A -> C) (g : B -> D) l1 : forall l2,
  zip (map f l1) (map g l2) = map (fun p => (f (fst p), g (snd p))) (zip l1 l2).
Proof. induction l1; intros [|b l2]; simpl; auto. now rewrite IHl1. Qed.

Lemma zip_self {A} (l : list A) : zip l l = map (fun a => (a, a)) l.
Proof. induction l; simpl; auto. now rewrite IHl. Qed.

Lemma mask_map (g : nat -> V) z n : forall w s, 
  map (fun i => if (Z.of_nat i <? Z.of_nat n)%Z then g i else z) (seq s w)
  = map g (seq s (Nat.min (n - s) w)) ++ repeat z (w - (n - s)).
Proof.
  induction w; intros s; simpl.
  - now rewrite Nat.min_0_r.
  - rewrite IHw. destruct (Z.of_nat s <? Z.of_nat n)%Z eqn:E.
    + replace (Nat.min (n - s) (S w)) with (S (Nat.min (n - S s) w)) by lia. simpl.
      replace (n - s) with (S (n - S s)) by lia. reflexivity.
    + replace (n - s) with 0 by lia. replace (n - S s) with 0 by lia. simpl. now rewrite Nat.sub_0_r.
Qed.

Lemma masked_row c E k n wo : valid_cfg c -> n = nwin c (length E) -> n <= wo ->
  map (fun u : bool * V => if fst u then snd u else zout c)
    (zip (map (fun t => (t <? Z.of_nat n)%Z) (map Z.of_nat (seq 0 wo))) (torch_conv_row c wo (E ++ repeat (zin c) k)))
  = conv_seq c E ++ repeat (zout c) (wo - n).
Proof.
  intros Hv Hn Hw. rewrite torch_row, map_map, zip_map, map_map. cbn [fst snd].
  rewrite mask_map. rewrite Nat.sub_0_r. f_equal. unfold conv_seq. rewrite <- Hn.
  replace (Nat.min n wo) with n by lia. apply map_ext. intros i. now rewrite window_pad.
Qed.


(* ---------- facts about batches ---------- *)

Definition padded c (r : chunk V) : list V :=
  (if csos r then zeros c else []) ++ cdat r ++ (if ceos r then zeros c else []).

Definition lmax {A} (f : A -> nat) (l : list A) : nat := fold_right Nat.max 0 (map f l).

Lemma lmax_ge {A} (f : A -> nat) l a : In a l -> f a <= lmax f l.
Proof. unfold lmax. induction l; simpl; [tauto|]. intros [->|H]; [lia|]. specialize (IHl H). lia. Qed.

Lemma lmax_ex {A} (f : A -> nat) l : l <> [] -> exists a, In a l /\ lmax f l = f a.
Proof.
  unfold lmax. induction l as [|a l IH]; [congruence|]. intros _. destruct l as [|b l].
  - exists a. simpl. split; auto. lia.
  - destruct IH as (x & Hx & E); [discriminate|]. cbn [map fold_right] in *.
    destruct (Nat.max_spec (f a) (Nat.max (f b) (fold_right Nat.max 0 (map f l)))) as [[_ M]|[_ M]]; rewrite M.
    + exists x. split; [now right|]. exact E.
    + exists a. split; [now left|]. reflexivity.
Qed.

Lemma lmax_le {A} (f : A -> nat) l n : (forall a, In a l -> f a <= n) -> lmax f l <= n.
Proof. unfold lmax. induction l; simpl; intros H; [lia|]. apply Nat.max_lub; auto. Qed.

Lemma zmax_lmax {A} (f : A -> nat) l : l <> [] -> zmax (map (fun a => Z.of_nat (f a)) l) = Ok (Z.of_nat (lmax f l)).
Proof.
  destruct l as [|a l]; [congruence|]. intros _. unfold zmax. cbn [map]. f_equal.
  unfold lmax. cbn [map fold_right].
  rewrite <- fold_left_rev_right. 
  assert (G : forall l0, fold_right (fun y x => Z.max x y) (Z.of_nat (f a)) (map (fun a0 => Z.of_nat (f a0)) l0)
            = Z.of_nat (Nat.max (f a) (fold_right Nat.max 0 (map f l0)))).
  { induction l0; simpl; [lia|]. rewrite IHl0. lia. }
  rewrite <- map_rev, G. f_equal. f_equal.
  assert (P : forall l0, fold_right Nat.max 0 (map f (rev l0)) = fold_right Nat.max 0 (map f l0)).
  { induction l0; simpl; auto. rewrite map_app, fold_right_app. simpl.
    rewrite Nat.max_0_r. rewrite <- IHl0. clear. induction (map f (rev l0)); simpl; [lia|]. rewrite IHl. lia. }
  apply P.
Qed.

Lemma longest_lmax (rs : list (chunk V)) : longest rs = lmax (fun r => length (cdat r)) rs.
Proof. reflexivity. Qed.

Lemma all_true_map {A} (f : A -> bool) l : all_true (map f l) = forallb f l.
Proof. unfold all_true. induction l; simpl; auto. now rewrite IHl. Qed.
Lemma any_true_map {A} (f : A -> bool) l : any_true (map f l) = existsb f l.
Proof. unfold any_true. induction l; simpl; auto. now rewrite IHl. Qed.

Lemma repeat_app' (z : V) a b : repeat z a ++ repeat z b = repeat z (a + b).
Proof. symmetry. apply repeat_app. Qed.

Lemma roll_pad (D : list V) z p k : p <= k -> roll p (D ++ repeat z k) = repeat z p ++ D ++ repeat z (k - p).
Proof.
  intros Hp. unfold roll. rewrite app_length, repeat_length.
  destruct (Nat.eq_dec p (length D + k)) as [E|E].
  - assert (D = []) by (apply length_zero_iff_nil; lia). subst D. simpl. simpl in E. subst p.
    destruct k; [reflexivity|]. rewrite Nat.mod_same by lia. rewrite Nat.sub_0_r, Nat.sub_diag.
    rewrite skipn_all2 by (rewrite repeat_length; lia). rewrite firstn_all2 by (rewrite repeat_length; lia).
    now rewrite app_nil_r.
  - rewrite Nat.mod_small by lia.
    replace (D ++ repeat z k) with ((D ++ repeat z (k - p)) ++ repeat z p).
    2:{ rewrite <- app_assoc, repeat_app'. f_equal. f_equal. lia. }
    assert (HL : length D + k - p = length (D ++ repeat z (k - p))) by (rewrite app_length, repeat_length; lia).
    rewrite skipn_app, firstn_app. rewrite <- HL.
    rewrite skipn_all2 by lia. rewrite firstn_all2 by lia. rewrite Nat.sub_diag. simpl. now rewrite app_nil_r.
Qed.

Lemma padded_length c r : length (padded c r) =
  (if csos r then padn c else 0) + length (cdat r) + (if ceos r then padn c else 0).
Proof.
  unfold padded, zeros. rewrite !app_length. destruct (csos r), (ceos r); rewrite ?repeat_length; cbn [length]; lia.
Qed.

Lemma padded_fill c r k : (if ceos r then padn c else 0) <= k ->
  (if csos r then zeros c else []) ++ cdat r ++ repeat (zin c) k
  = padded c r ++ repeat (zin c) (k - (if ceos r then padn c else 0)).
Proof.
  intros H. unfold padded, zeros. rewrite <- !app_assoc. f_equal. f_equal.
  destruct (ceos r).
  - rewrite repeat_app'. f_equal. lia.
  - simpl. f_equal. lia.
Qed.

Definition brow_of (r : chunk V) : row := mkRow (cid r) (csos r) (ceos r) (Z.of_nat (length (cdat r))) (cch r).

(** The metadata of [rs] with the lengths of the padded data. *)
Definition pmeta c h (rs : list (chunk V)) : meta :=
  with_lens (of_rows h (map brow_of rs)) (map (fun r => Z.of_nat (length (padded c r))) rs).

Lemma pad_lens_eq c h (rs : list (chunk V)) :
  pad_lens (Z.of_nat (padn c)) (of_rows h (map brow_of rs)) = map (fun r => Z.of_nat (length (padded c r))) rs.
Proof.
  unfold pad_lens, all_starting_and_ending, any_starting_or_ending, all_starting, all_ending, any_starting, any_ending.
  cbn [sos eos lens of_rows]. rewrite !map_map. cbn [brow_of rsos reos rlen].
  rewrite !all_true_map, !any_true_map.
  destruct (forallb csos rs && forallb ceos rs) eqn:E1.
  - apply map_ext_in. intros r Hr. rewrite andb_true_iff, !forallb_forall in E1. destruct E1 as [A B].
    rewrite padded_length, (A r Hr), (B r Hr). lia.
  - destruct (existsb csos rs || existsb ceos rs) eqn:E2.
    + unfold add_where. rewrite zip_map, map_map, zip_map, map_map. cbn [fst snd].
      apply map_ext. intros r. rewrite padded_length. destruct (csos r), (ceos r); lia.
    + apply map_ext_in. intros r Hr. rewrite padded_length.
      apply orb_false_iff in E2 as [A B].
      assert (csos r = false). { destruct (csos r) eqn:Es; auto. assert (existsb csos rs = true) by (apply existsb_exists; eauto). congruence. }
      assert (ceos r = false). { destruct (ceos r) eqn:Es; auto. assert (existsb ceos rs = true) by (apply existsb_exists; eauto). congruence. }
      rewrite H, H0. lia.
Qed.

Lemma batch_of_meta z h rs : bm (batch_of z h rs) = of_rows h (map brow_of rs).
Proof. reflexivity. Qed.

Definition plen c rs := lmax (fun r => length (padded c r)) rs.

(** A batch of width [w] for which conv1d pads rightly: an all-starting batch that is not all-ending must leave room
    for the left padding. *)
Definition roomy c (w : nat) (rs : list (chunk V)) : Prop :=
  0 < padn c -> forallb csos rs = true -> forallb ceos rs = false -> w + padn c <= plen c rs.

(** Width of the tensor that is convolved, native padding included. *)
Definition cwidth c (w : nat) (rs : list (chunk V)) : nat :=
  if forallb csos rs && forallb ceos rs then w + 2 * padn c else Nat.max w (plen c rs).

Definition filled c (W : nat) (r : chunk V) : list V := padded c r ++ repeat (zin c) (W - length (padded c r)).

Lemma longest_le_plen c rs : longest rs <= plen c rs.
Proof.
  rewrite longest_lmax. apply lmax_le. intros r Hr. pose proof (lmax_ge (fun r => length (padded c r)) rs r Hr).
  cbv beta in H. rewrite padded_length in H. unfold plen. lia.
Qed.

Lemma plen_ge c rs r : In r rs -> length (padded c r) <= plen c rs.
Proof. intros Hr. exact (lmax_ge (fun r => length (padded c r)) rs r Hr). Qed.

Lemma longest_ge (rs : list (chunk V)) r : In r rs -> length (cdat r) <= longest rs.
Proof. intros Hr. exact (lmax_ge (fun r => length (cdat r)) rs r Hr). Qed.

Lemma plen_both c rs : rs <> [] -> forallb csos rs && forallb ceos rs = true -> plen c rs = longest rs + 2 * padn c.
Proof.
  intros Hne H. apply andb_true_iff in H as [Es Ee]. rewrite !forallb_forall in *. apply Nat.le_antisymm.
  - apply lmax_le. intros r Hr. rewrite padded_length, (Es r Hr), (Ee r Hr). pose proof (longest_ge rs r Hr). lia.
  - destruct (lmax_ex (fun r => length (cdat r)) rs Hne) as (r & Hr & E). rewrite longest_lmax, E.
    pose proof (plen_ge c rs r Hr) as H. rewrite padded_length, (Es r Hr), (Ee r Hr) in H. lia.
Qed.

Lemma cwidth_ge c w rs : rs <> [] -> longest rs <= w -> plen c rs <= cwidth c w rs.
Proof.
  intros Hne Hw. unfold cwidth. destruct (forallb csos rs && forallb ceos rs) eqn:E; [|lia].
  rewrite (plen_both c rs) by auto. lia.
Qed.

Lemma cwidth_tight c rs : rs <> [] -> cwidth c (longest rs) rs = plen c rs.
Proof.
  intros Hne. unfold cwidth. destruct (forallb csos rs && forallb ceos rs) eqn:E.
  - symmetry. now apply plen_both.
  - pose proof (longest_le_plen c rs). lia.
Qed.

Lemma roomy_tight c rs : rs <> [] -> roomy c (longest rs) rs.
Proof.
  intros Hne Hp Hs _. rewrite forallb_forall in Hs.
  destruct (lmax_ex (fun r => length (cdat r)) rs Hne) as (r & Hr & E). rewrite longest_lmax, E.
  pose proof (plen_ge c rs r Hr) as H. rewrite padded_length, (Hs r Hr) in H. lia.
Qed.

Lemma apply_padding_eq c w h rs : valid_cfg c -> rs <> [] -> 0 < padn c -> longest rs <= w -> roomy c w rs ->
  forallb csos rs && forallb ceos rs = false ->
  apply_padding c (pmeta c h rs) w (bd (batch_with (zin c) w h rs))
  = Ok (cwidth c w rs, map (filled c (cwidth c w rs)) rs).
Proof.
  intros Hv Hne Hp0 Hlw Hroom Hnse. unfold cwidth. rewrite Hnse. unfold apply_padding, max_length. cbn [lens pmeta with_lens].
  rewrite zmax_lmax by auto. fold (plen c rs). cbn [bind].
  unfold all_starting, any_starting. cbn [sos pmeta with_lens of_rows]. rewrite map_map. cbn [brow_of rsos].
  rewrite all_true_map, any_true_map.
  cbn [bd batch_with].
  assert (Hrow : forall r, In r rs -> length (cdat r) <= w) by (intros r Hr; pose proof (longest_ge rs r Hr); lia).
  assert (Hprow : forall r, In r rs -> (if csos r then padn c else 0) + length (cdat r) + (if ceos r then padn c else 0) <= plen c rs).
  { intros r Hr. pose proof (plen_ge c rs r Hr) as H. now rewrite padded_length in H. }
  destruct (forallb csos rs) eqn:Eall.
  - (* all rows start *)
    assert (Hs : forall r, In r rs -> csos r = true) by (now apply forallb_forall).
    assert (Hp : w + padn c <= plen c rs) by (apply Hroom; auto).
    rewrite andb_false_r.
    replace (0 <? Z.of_nat (plen c rs) - Z.of_nat w)%Z with true by lia.
    replace (Z.of_nat (padn c) <=? Z.of_nat (plen c rs) - Z.of_nat w)%Z with true by lia.
    cbn [bind]. replace (Nat.max w (plen c rs)) with (plen c rs) by lia. f_equal. f_equal.
    * lia.
    * rewrite map_map. apply map_ext_in. intros r Hr. unfold filled.
      rewrite <- !app_assoc, repeat_app'. specialize (Hrow r Hr). specialize (Hprow r Hr). rewrite (Hs r Hr) in Hprow.
      replace (repeat (zin c) (padn c)) with (if csos r then zeros c else []) by (now rewrite (Hs r Hr)).
      rewrite padded_fill by lia. f_equal. f_equal. rewrite padded_length, (Hs r Hr). lia.
  - (* some row does not start *)
    set (W := Nat.max w (plen c rs)).
    set (rows1 := map (fun r => cdat r ++ repeat (zin c) (W - length (cdat r))) rs).
    assert (E1 : (if (0 <? Z.of_nat (plen c rs) - Z.of_nat w)%Z
      then Ok (w + Z.to_nat (Z.of_nat (plen c rs) - Z.of_nat w),
           map (fun r => r ++ repeat (zin c) (Z.to_nat (Z.of_nat (plen c rs) - Z.of_nat w)))
             (map (fun r => cdat r ++ repeat (zin c) (w - length (cdat r))) rs))
      else Ok (w, map (fun r => cdat r ++ repeat (zin c) (w - length (cdat r))) rs))
      = Ok (W, rows1)).
    { destruct (0 <? Z.of_nat (plen c rs) - Z.of_nat w)%Z eqn:Ea; f_equal; f_equal; try lia.
      - rewrite map_map. apply map_ext_in. intros r Hr. specialize (Hrow r Hr). rewrite <- app_assoc, repeat_app'. f_equal. f_equal. lia.
      - apply map_ext_in. intros r Hr. f_equal. f_equal. lia. }
    rewrite E1. cbn [bind negb]. rewrite andb_true_r. f_equal. f_equal.
    destruct (existsb csos rs) eqn:Ex.
    + unfold rows1. rewrite zip_map, map_map. cbn [fst snd]. apply map_ext_in. intros r Hr.
      specialize (Hrow r Hr). specialize (Hprow r Hr). unfold filled. destruct (csos r) eqn:Es.
      * rewrite roll_pad by lia.
        change (repeat (zin c) (padn c)) with (zeros c).
        replace (zeros c) with (if csos r then zeros c else []) by (now rewrite Es).
        rewrite padded_fill by lia. f_equal. f_equal. rewrite padded_length, Es. lia.
      * replace (cdat r ++ repeat (zin c) (W - length (cdat r))) with
          ((if csos r then zeros c else []) ++ cdat r ++ repeat (zin c) (W - length (cdat r))) by (now rewrite Es).
        rewrite padded_fill by lia. f_equal. f_equal. rewrite padded_length, Es. lia.
    + unfold rows1. apply map_ext_in. intros r Hr.
      assert (Es : csos r = false). { destruct (csos r) eqn:Es; auto. assert (existsb csos rs = true) by (apply existsb_exists; eauto). congruence. }
      specialize (Hrow r Hr). specialize (Hprow r Hr). unfold filled.
      replace (cdat r ++ repeat (zin c) (W - length (cdat r))) with
          ((if csos r then zeros c else []) ++ cdat r ++ repeat (zin c) (W - length (cdat r))) by (now rewrite Es).
      rewrite padded_fill by (rewrite Es in *; lia). f_equal. f_equal. rewrite padded_length, Es. lia.
Qed.


(* ---------- conv1d on a batch ---------- *)

Lemma sub_list_skip {A} (l : list A) i j : (0 <= i)%Z -> (0 <= j)%Z ->
  sub_list l i j = Ok (skipn (Z.to_nat i) (firstn (Z.to_nat j) l)).
Proof.
  intros Hi Hj. destruct (Z_le_gt_dec i j).
  - rewrite sub_list_firstn by lia. f_equal. rewrite firstn_skipn_comm. f_equal. f_equal. lia.
  - unfold sub_list.
    change (list_slice l (mkSlice (Some i) (Some j) None)) with (list_slice l (mkSlice (Some i) (Some j) (Some 1%Z))).
    rewrite list_slice_pos by lia. f_equal.
    rewrite slice_positions_range by (try lia; apply zlen_nonneg).
    unfold slice_lo, slice_hi, slice_end. replace (i <? 0)%Z with false by lia. replace (j <? 0)%Z with false by lia.
    rewrite py_range_nil by lia. simpl. symmetry. apply skipn_all2. rewrite firstn_length. lia.
Qed.

Lemma row_slice_fill (P : list V) z k n : row_slice (P ++ repeat z k) (Z.of_nat n) (Z.of_nat (length P)) = Ok (skipn n P).
Proof.
  unfold row_slice. change (tensor_slice (P ++ repeat z k) (mkSlice (Some (Z.of_nat n)) (Some (Z.of_nat (length P))) None))
    with (sub_list (P ++ repeat z k) (Z.of_nat n) (Z.of_nat (length P))).
  rewrite sub_list_skip by lia. rewrite !Nat2Z.id. rewrite firstn_app, firstn_all, Nat.sub_diag. simpl. now rewrite app_nil_r.
Qed.

(** What is kept for the next call. *)
Definition leftover c (E : list V) : list V := skipn (nwin c (length E) * strd c) E.

Definition temps c (rs : list (chunk V)) : list (string * list V) :=
  if (1 <? kspan c) && negb (forallb ceos rs)
  then flat_map (fun r => if ceos r then [] else [(cid r, leftover c (padded c r))]) rs
  else [].

Lemma zip_map_l {A B C} (f : A -> B) (g : A -> C) l : zip (map f l) (map g l) = map (fun a => (f a, g a)) l.
Proof. apply zip_map. Qed.

Lemma temp_buffer_eq c W h rs rows1 : valid_cfg c ->
  (forallb ceos rs = false -> rows1 = map (filled c W) rs) ->
  temp_buffer c (pmeta c h rs) (map (output_length c) (lens (pmeta c h rs))) rows1 = Ok (temps c rs).
Proof.
  intros Hv Hr. unfold temp_buffer, temps. rewrite kernel_width_eq by auto.
  unfold all_ending. cbn [eos pmeta with_lens of_rows lens ids]. rewrite !map_map. cbn [brow_of reos rid]. rewrite all_true_map.
  replace (1 <? Z.of_nat (kspan c))%Z with (1 <? kspan c) by lia.
  destruct (1 <? kspan c); cbn [andb]; auto.
  destruct (forallb ceos rs) eqn:E; cbn [negb]; auto.
  rewrite Hr by auto. rewrite !zip_map_l.
  rewrite mapM_ok with (g := fun q => let '(o, n, i, e, r) := q in
      if e : bool then [] else [(i, skipn (Z.to_nat o * strd c) (firstn (Z.to_nat n) r))]).
  - cbn [bind]. rewrite map_map. rewrite flat_map_concat_map. f_equal. f_equal. apply map_ext. intros r.
    destruct (ceos r); auto. rewrite output_length_nwin by auto. rewrite !Nat2Z.id. f_equal. f_equal.
    unfold leftover, filled. rewrite firstn_app, firstn_all, Nat.sub_diag. simpl. now rewrite app_nil_r.
  - intros q Hq. apply in_map_iff in Hq as (r & <- & Hin).
    destruct (ceos r); auto. rewrite output_length_nwin by auto.
    rewrite <- Nat2Z.inj_mul. unfold filled. rewrite row_slice_fill. cbn [bind]. rewrite !Nat2Z.id.
    rewrite firstn_app, firstn_all, Nat.sub_diag. simpl. now rewrite app_nil_r.
Qed.

Definition convolved c (r : chunk V) : chunk V := set_data r (conv_seq c (padded c r)).

Lemma longest_convolved c rs : valid_cfg c -> rs <> [] -> longest (map (convolved c) rs) = nwin c (plen c rs).
Proof.
  intros Hv Hne. rewrite longest_lmax. unfold lmax. rewrite map_map. fold (lmax (fun r => length (cdat (convolved c r))) rs).
  apply Nat.le_antisymm.
  - apply lmax_le. intros r Hr. cbn [convolved set_data cdat]. rewrite conv_seq_length. apply nwin_le; auto.
    apply (lmax_ge (fun r => length (padded c r)) rs r Hr).
  - unfold plen. destruct (lmax_ex (fun r => length (padded c r)) rs Hne) as (r & Hr & ->).
    pose proof (lmax_ge (fun r => length (cdat (convolved c r))) rs r Hr) as H. cbv beta in H.
    cbn [convolved set_data cdat] in H. now rewrite conv_seq_length in H.
Qed.

Lemma torch_conv1d_eq c np w rows W : valid_cfg c -> w + 2 * np = W ->
  torch_conv1d c np w rows =
    if W <? kspan c then Err RuntimeError
    else Ok (nwin c W, map (torch_conv_row c (nwin c W)) (map (fun r => repeat (zin c) np ++ r ++ repeat (zin c) np) rows)).
Proof.
  intros Hv HW. unfold torch_conv1d. rewrite HW.
  replace (Z.of_nat (dilat c) * (Z.of_nat (ksize c) - 1) + 1)%Z with (Z.of_nat (kspan c))
    by (destruct Hv as (A & B & C); unfold kspan; nia).
  replace (Z.of_nat W <? Z.of_nat (kspan c))%Z with (W <? kspan c) by lia.
  destruct (W <? kspan c) eqn:E; auto.
  assert (EN : Z.to_nat ((Z.of_nat W - Z.of_nat (kspan c)) / Z.of_nat (strd c) + 1) = nwin c W).
  { unfold nwin. rewrite E. rewrite <- Nat2Z.inj_sub by lia. rewrite <- Nat2Z.inj_div.
    generalize ((W - kspan c) / strd c). lia. }
  rewrite EN. now rewrite map_map.
Qed.

Lemma pmeta_nopad c h rs : padn c = 0 -> pmeta c h rs = of_rows h (map brow_of rs).
Proof.
  intros H. unfold pmeta, with_lens. cbn [ids sos eos chs of_rows]. unfold of_rows. f_equal.
  rewrite map_map. apply map_ext. intros r. rewrite padded_length, H. cbn [brow_of rlen]. f_equal. destruct (csos r), (ceos r); lia.
Qed.

Lemma conv1d_batch c w h rs : valid_cfg c -> rs <> [] -> longest rs <= w -> roomy c w rs ->
  conv1d c (batch_with (zin c) w h rs) =
    if cwidth c w rs <? kspan c then Err RuntimeError
    else Ok (batch_with (zout c) (nwin c (cwidth c w rs)) h (map (convolved c) rs), temps c rs).
Proof.
  intros Hv Hne Hlw Hroom. set (x := batch_with (zin c) w h rs).
  assert (Hm1 : (if (0 <? padn c) then with_lens (bm x) (pad_lens (Z.of_nat (padn c)) (bm x)) else bm x) = pmeta c h rs).
  { change (bm x) with (of_rows h (map brow_of rs)). destruct (0 <? padn c) eqn:Ep.
    - rewrite pad_lens_eq. reflexivity.
    - rewrite pmeta_nopad by lia. reflexivity. }
  unfold conv1d. rewrite Hm1. set (W := cwidth c w rs).
  assert (Hst : exists w1 rows1 np,
     (if (0 <? padn c) && negb (all_starting_and_ending (pmeta c h rs))
      then bind (apply_padding c (pmeta c h rs) (bw x) (bd x))
             (fun x => match x with (w1, rows1) => Ok (w1, rows1, 0) end)
      else Ok (bw x, bd x, padn c)) = Ok (w1, rows1, np)
     /\ w1 + 2 * np = W
     /\ map (fun r => repeat (zin c) np ++ r ++ repeat (zin c) np) rows1 = map (filled c W) rs
     /\ (forallb ceos rs = false -> rows1 = map (filled c W) rs)).
  { unfold all_starting_and_ending, all_starting, all_ending. cbn [sos eos pmeta with_lens of_rows].
    rewrite !map_map. cbn [brow_of rsos reos]. rewrite !all_true_map.
    assert (Hid : forall (l : list (list V)), map (fun r => repeat (zin c) 0 ++ r ++ repeat (zin c) 0) l = l).
    { intros l. rewrite <- (map_id l) at 2. apply map_ext. intros r. simpl. apply app_nil_r. }
    destruct (forallb csos rs && forallb ceos rs) eqn:Ese.
    - rewrite andb_false_r. do 3 eexists. split; [reflexivity|].
      assert (HW : W = w + 2 * padn c) by (unfold W, cwidth; now rewrite Ese).
      apply andb_true_iff in Ese as [Es Ee]. rewrite !forallb_forall in *.
      split; [rewrite HW; reflexivity|]. split.
      + cbn [x bd batch_with]. rewrite map_map. apply map_ext_in. intros r Hr.
        rewrite <- app_assoc, repeat_app'. change (repeat (zin c) (padn c)) with (zeros c).
        unfold filled. pose proof (longest_ge rs r Hr) as H.
        replace (zeros c) with (if csos r then zeros c else []) at 1 by (now rewrite (Es r Hr)).
        rewrite padded_fill by (rewrite (Ee r Hr); lia). f_equal. f_equal.
        rewrite padded_length, (Es r Hr), (Ee r Hr), HW. lia.
      + intros Hf. exfalso. assert (forallb ceos rs = true) by (now apply forallb_forall). congruence.
    - destruct (0 <? padn c) eqn:Ep; cbn [andb negb].
      + change (bw x) with w. unfold x. rewrite apply_padding_eq by (auto; lia). cbn [bind].
        do 3 eexists. split; [reflexivity|]. split; [unfold W; lia|]. split; [apply Hid|auto].
      + assert (Hp : padn c = 0) by lia. rewrite Hp.
        assert (Hpl : W = w).
        { unfold W, cwidth. rewrite Ese. assert (plen c rs <= longest rs); [|lia]. rewrite longest_lmax. unfold plen, lmax.
          assert (E : map (fun r => length (padded c r)) rs = map (fun r => length (cdat r)) rs); [|rewrite E; lia].
          apply map_ext. intros r. rewrite padded_length, Hp. destruct (csos r), (ceos r); lia. }
        assert (Hf : bd x = map (filled c W) rs).
        { cbn [x bd batch_with]. apply map_ext. intros r. unfold filled. rewrite Hpl.
          assert (Hpd : padded c r = cdat r).
          { unfold padded, zeros. rewrite Hp. destruct (csos r), (ceos r); simpl; now rewrite ?app_nil_r. }
          now rewrite Hpd. }
        do 3 eexists. split; [reflexivity|]. split; [cbn; rewrite Hpl; lia|]. rewrite Hid. auto. }
  destruct Hst as (w1 & rows1 & np & Hst & HW & Hrows & Hrows1).
  rewrite Hst. cbn [bind]. rewrite (temp_buffer_eq c W) by auto. cbn [bind].
  rewrite (torch_conv1d_eq c np w1 rows1 W) by auto.
  destruct (W <? kspan c) eqn:Ek; [reflexivity|]. cbn [bind]. rewrite Hrows, map_map.
  assert (Hnw : 0 < nwin c W) by (apply nwin_lt; auto; lia).
  unfold sequence_mask. replace (Z.of_nat (nwin c W) =? 0)%Z with false by lia. cbn [bind].
  replace (Z.of_nat (nwin c W) <? 0)%Z with false by lia. cbn [bind]. rewrite Nat2Z.id.
  f_equal. f_equal. unfold batch_with.
  cbn [lens pmeta with_lens]. rewrite !map_map. f_equal.
  - rewrite zip_map_l, map_map. cbn [fst snd]. apply map_ext_in. intros r Hr.
    cbn [convolved set_data cdat]. rewrite output_length_nwin by auto. unfold filled.
    rewrite masked_row; auto.
    + now rewrite conv_seq_length.
    + apply nwin_le; auto. pose proof (plen_ge c rs r Hr). pose proof (cwidth_ge c w rs Hne Hlw). unfold W. lia.
  - unfold with_lens, pmeta. cbn [ids sos eos chs of_rows with_lens]. unfold of_rows.
    rewrite !map_map. cbn [brow_of rid rsos reos rlen rch convolved set_data cid csos ceos cdat cch].
    f_equal. apply map_ext. intros r. now rewrite output_length_nwin, conv_seq_length by auto.
Qed.


(* ---------- unpad_sequence, pad_stream_tensor ---------- *)

(** The chunk unpad_sequence returns for a row: a row without data loses its flags. *)
Definition unflag (r : chunk V) : chunk V :=
  match cdat r with [] => mkChunk (cid r) false false [] (cch r) | _ => r end.

Definition single_of (h : bool) (r : chunk V) : single V := mkSingle (cdat r) (of_rows h [brow_of r]).

Lemma at_positions_one {A} (a : A) : at_positions [a] (slice_positions 1 None None 1) = [a].
Proof. reflexivity. Qed.

Lemma narrow_unflag z w h (r : chunk V) : length (cdat r) <= w ->
  narrow_single (mkSingle (cdat r ++ repeat z (w - length (cdat r))) (of_rows h [brow_of r])) 0 (Z.of_nat (length (cdat r)))
  = Ok (single_of h (unflag r)).
Proof.
  intros Hw. unfold narrow_single. cbn [sd sm].
  assert (Hn : zlen (cdat r ++ repeat z (w - length (cdat r))) = Z.of_nat w).
  { unfold zlen. rewrite app_length, repeat_length. lia. }
  rewrite Hn. cbn [Z.ltb Z.compare]. replace (Z.of_nat w <? 0)%Z with false by lia. cbn [orb].
  replace (Z.of_nat (length (cdat r)) <? 0)%Z with false by lia.
  replace (Z.of_nat w <? 0 + Z.of_nat (length (cdat r)))%Z with false by lia. cbn [orb].
  unfold index_pair. rewrite index_batch_slice_default. change (zlen [brow_of r]) with 1%Z. rewrite at_positions_one. cbn [bind].
  assert (Hmax : is_max_len [brow_of r] (Z.of_nat (length (cdat r)))).
  { split; [exists (brow_of r); simpl; auto|]. intros x [<-|[]]. simpl. lia. }
  rewrite (index_slice_cut h [brow_of r] (Z.of_nat (length (cdat r)))) by
    (auto; try lia; repeat constructor; simpl; lia).
  cbn [bind]. unfold single_of. f_equal. f_equal.
  - rewrite Nat2Z.id. simpl (skipn _ _). rewrite firstn_app, firstn_all, Nat.sub_diag. simpl. rewrite app_nil_r.
    unfold unflag. destruct (cdat r) eqn:E; auto.
  - f_equal. simpl. f_equal. unfold row_cut, brow_of, unflag. cbn [rid rsos reos rlen rch].
    destruct (cdat r) as [|v l] eqn:E.
    + cbn. rewrite !andb_false_r. reflexivity.
    + cbn [cid csos ceos cdat cch]. rewrite E. set (n := Z.of_nat (length (v :: l))).
      assert (0 < n)%Z by (unfold n; cbn [length]; lia).
      f_equal; lia.
Qed.

Lemma unpad_eq z w h (rs : list (chunk V)) : longest rs <= w ->
  unpad_sequence (batch_with z w h rs) = Ok (map (fun r => single_of h (unflag r)) rs).
Proof.
  intros Hw. unfold unpad_sequence, unbind_rows. cbn [bm bd batch_with].
  rewrite unbind_batch_rows. cbn [bind]. rewrite !map_length, Nat.eqb_refl. cbn [bind].
  rewrite map_map, zip_map_l, map_map. unfold mapM. rewrite map_map.
  fold (mapM (fun r : chunk V => bind (the_length (of_rows h [brow_of r]))
    (fun n => narrow_single (mkSingle (cdat r ++ repeat z (w - length (cdat r))) (of_rows h [brow_of r])) 0 n)) rs).
  apply mapM_ok. intros r Hr. cbn [the_length of_rows lens map brow_of rlen bind].
  apply narrow_unflag. pose proof (lmax_ge (fun r => length (cdat r)) rs r Hr). rewrite longest_lmax in Hw. cbv beta in H. lia.
Qed.

Lemma pad_stream_eq z h (rs : list (chunk V)) : rs <> [] ->
  pad_stream_tensor z (map (single_of h) rs) = Ok (batch_of z false rs).
Proof.
  intros Hne. unfold pad_stream_tensor. rewrite !map_map. cbn [single_of sm sd].
  assert (E : cat_batch (map (fun r => of_rows h [brow_of r]) rs) = Ok (of_rows h (map brow_of rs))).
  { pose proof (cat_batch_pieces h (map (fun r => [brow_of r]) rs)) as H. rewrite map_map in H. rewrite H by (destruct rs; [congruence|discriminate]).
    f_equal. f_equal. clear. induction rs; simpl; auto. now rewrite IHrs. }
  rewrite E. cbn [bind]. unfold pad_chunks. cbn [existsb String.eqb Ascii.eqb Bool.eqb orb negb ids sos eos of_rows].
  unfold torch_pad_sequence. destruct rs as [|r0 rs0] eqn:Er; [congruence|]. rewrite <- Er in *.
  replace (match map (fun x => cdat x) rs with [] => _ | _ :: _ => _ end)
    with (Ok (max_nat (map (@length V) (map (fun x : chunk V => cdat x) rs)),
          map (pad_to z (max_nat (map (@length V) (map (fun x : chunk V => cdat x) rs)))) (map (fun x : chunk V => cdat x) rs)))
    by (rewrite Er; reflexivity).
  cbn [bind]. rewrite !map_map. cbn [brow_of rid rsos reos].
  rewrite (proj1 (make_meta_iff _ _ _ _ _)) by (rewrite !map_length; auto). cbn [bind].
  unfold batch_of, batch_with, of_rows. rewrite !map_map. cbn [rid rsos reos rlen].
  unfold longest, max_nat. reflexivity.
Qed.

(* ---------- the pre-hook ---------- *)

Definition held (st : buffers V) (i : string) : list V := match st i with Some b => b | None => [] end.
Definition prepended (st : buffers V) (r : chunk V) : chunk V :=
  set_data r ((if csos r then [] else held st (cid r)) ++ cdat r).

(** What the module expects of its buffers for this batch. *)
Definition st_ok c (st : buffers V) (rs : list (chunk V)) : Prop :=
  forall r, In r rs ->
    (csos r = true -> st (cid r) = None \/ forall q, In q rs -> csos q = true) /\
    (csos r = false -> if 1 <? kspan c then st (cid r) <> None else held st (cid r) = []).

(** Starting and running streams together while nothing is held for the running ones. *)
Definition stuck c (st : buffers V) (rs : list (chunk V)) : Prop :=
  1 < kspan c /\ (exists r, In r rs /\ csos r = true) /\ (exists r, In r rs /\ csos r = false) /\
  (forall r, In r rs -> csos r = false -> held st (cid r) = []).

Definition flags_ok (rs : list (chunk V)) : Prop := Forall (fun r => csos r = true \/ ceos r = true -> cdat r <> []) rs.

Lemma unflag_id r : (csos r = true \/ ceos r = true -> cdat r <> []) -> unflag r = r.
Proof.
  intros H. unfold unflag. destruct r as [i s e d k]. simpl in *. destruct d; auto.
  destruct s; [exfalso; apply H; auto|]. destruct e; [exfalso; apply H; auto|]. reflexivity.
Qed.

Lemma prepended_sos st r : csos r = true -> prepended st r = r.
Proof. intros H. unfold prepended. rewrite H. unfold set_data. simpl. now destruct r. Qed.

Lemma batch_of_ext z h rs1 rs2 : rs1 = rs2 -> batch_of (V := V) z h rs1 = batch_of z h rs2.
Proof. now intros ->. Qed.

Lemma longest_prepend (n : nat) (g : chunk V -> list V) rs : rs <> [] -> (forall r, In r rs -> length (g r) = n) ->
  longest (map (fun r => set_data r (g r ++ cdat r)) rs) = n + longest rs.
Proof.
  intros Hne Hg. rewrite !longest_lmax. unfold lmax at 1. rewrite map_map.
  fold (lmax (fun r => length (cdat (set_data r (g r ++ cdat r)))) rs).
  apply Nat.le_antisymm.
  - apply lmax_le. intros r Hr. cbn [set_data cdat]. rewrite app_length, (Hg r Hr).
    pose proof (lmax_ge (fun r => length (cdat r)) rs r Hr) as H. cbv beta in H. lia.
  - destruct (lmax_ex (fun r => length (cdat r)) rs Hne) as (r & Hr & ->).
    pose proof (lmax_ge (fun r => length (cdat (set_data r (g r ++ cdat r)))) rs r Hr) as H. cbv beta in H.
    eapply Nat.le_trans; [|exact H]. cbn [set_data cdat]. rewrite app_length, (Hg r Hr). lia.
Qed.

Lemma all_some_map_some {A B} (f : A -> option B) (g : A -> B) l :
  (forall a, In a l -> f a = Some (g a)) -> all_some (map f l) = Some (map g l).
Proof.
  intros H. unfold all_some. induction l as [|a l IH]; auto. cbn [map fold_right]. rewrite IH by (intros; apply H; now right).
  rewrite (H a) by now left. reflexivity.
Qed.

Lemma all_some_none {A B} (f : A -> option B) l a : In a l -> f a = None -> all_some (map f l) = None.
Proof.
  intros Hin Hf. unfold all_some. induction l as [|b l IH]; [destruct Hin|]. cbn [map fold_right].
  destruct Hin as [->|Hin].
  - now rewrite Hf.
  - rewrite IH by auto. now destruct (f b).
Qed.

Lemma pre_hook_eq c st w h rs : valid_cfg c -> rs <> [] -> longest rs <= w -> roomy c w rs -> flags_ok rs -> st_ok c st rs ->
  (stuck c st rs /\ pre_hook c st (batch_with (zin c) w h rs) = Err TypeError) \/
  (~ stuck c st rs /\ exists w' h', (h' = true -> h = true) /\
     longest (map (prepended st) rs) <= w' /\ roomy c w' (map (prepended st) rs) /\
     (w = longest rs -> w' = longest (map (prepended st) rs)) /\
     pre_hook c st (batch_with (zin c) w h rs) = Ok (batch_with (zin c) w' h' (map (prepended st) rs))).
Proof.
  intros Hv Hne Hlw Hroom Hfl Hok. unfold pre_hook. rewrite kernel_width_eq by auto.
  unfold all_starting. cbn [bm batch_with sos of_rows]. rewrite map_map. cbn [rsos]. rewrite all_true_map.
  replace (1 <? Z.of_nat (kspan c))%Z with (1 <? kspan c) by lia.
  destruct (1 <? kspan c) eqn:Ek; cbn [andb].
  2:{ right. split; [intros (H & _); lia|]. exists w, h. split; auto.
      assert (E : map (prepended st) rs = rs); [|rewrite E; auto].
      rewrite <- map_id. apply map_ext_in. intros r Hr. destruct (Hok r Hr) as [H1 H2]. rewrite Ek in H2.
      unfold prepended, set_data. destruct (csos r) eqn:Es; [|rewrite H2 by auto]; simpl; rewrite <- ?Es; now destruct r. }
  destruct (forallb csos rs) eqn:Eall; cbn [negb].
  { right. rewrite forallb_forall in Eall. split.
    - intros (_ & _ & (r & Hr & Hs) & _). rewrite (Eall r Hr) in Hs. discriminate.
    - exists w, h. split; auto. assert (E : map (prepended st) rs = rs); [|rewrite E; auto]. rewrite <- map_id. apply map_ext_in.
      intros r Hr. now rewrite prepended_sos by (now apply Eall). }
  assert (Hrun : exists r, In r rs /\ csos r = false).
  { apply not_true_iff_false in Eall. rewrite forallb_forall in Eall.
    destruct (existsb (fun r => negb (csos r)) rs) eqn:Ex.
    - apply existsb_exists in Ex as (r & Hr & Hs). exists r. split; auto. now apply negb_true_iff.
    - exfalso. apply Eall. intros r Hr. destruct (csos r) eqn:Es; auto.
      assert (existsb (fun r => negb (csos r)) rs = true) by (apply existsb_exists; exists r; rewrite Es; auto). congruence. }
  assert (Hnew : forall r, In r rs -> csos r = true -> st (cid r) = None).
  { intros r Hr Hs. destruct (proj1 (Hok r Hr) Hs) as [|G]; auto. destruct Hrun as (q & Hq & Hqs). rewrite (G q Hq) in Hqs. discriminate. }
  assert (Hroom' : forall w', roomy c w' (map (prepended st) rs)).
  { intros w' _ H. exfalso. rewrite forallb_forall in H. destruct Hrun as (r & Hr & Hs).
    specialize (H _ (in_map (prepended st) _ _ Hr)). simpl in H. congruence. }
  unfold buffer_data. cbn [bm batch_with ids of_rows]. rewrite !map_map. cbn [rid].
  destruct rs as [|r0 rs0] eqn:Ers; [congruence|]. rewrite <- Ers in *.
  assert (M : forall (F : Z -> res (batch V)) e,
    match map (fun x : chunk V => buffer_len (st (cid x))) rs with [] => e | r :: _ => F r end = F (buffer_len (st (cid r0))))
    by (intros; rewrite Ers; reflexivity).
  rewrite M. clear M.
  destruct (forallb _ (map (fun x : chunk V => buffer_len (st (cid x))) rs)) eqn:Eeq.
  - assert (Hlen : forall r, In r rs -> buffer_len (st (cid r)) = buffer_len (st (cid r0))).
    { rewrite forallb_forall in Eeq. intros r Hr. specialize (Eeq (buffer_len (st (cid r)))). rewrite Z.eqb_eq in Eeq. apply Eeq.
      apply in_map_iff. eauto. }
    destruct (existsb csos rs) eqn:Ex.
    + left. apply existsb_exists in Ex as (r & Hr & Hs).
      assert (Hz : buffer_len (st (cid r0)) = 0%Z) by (rewrite <- (Hlen r Hr); now rewrite (Hnew r Hr Hs)).
      split.
      * split; [lia|]. split; [eauto|]. split; [auto|]. intros q Hq Hqs.
        specialize (Hlen q Hq). rewrite Hz in Hlen. unfold held. destruct (st (cid q)) as [b|]; auto.
        unfold buffer_len, zlen in Hlen. destruct b; auto. simpl in Hlen; lia.
      * unfold stack_buffers. rewrite (all_some_none (fun x : chunk V => st (cid x)) rs r Hr); auto.
    + right. assert (Hns : forall r, In r rs -> csos r = false).
      { intros r Hr. destruct (csos r) eqn:Es; auto. assert (existsb csos rs = true) by (apply existsb_exists; eauto). congruence. }
      split; [intros (_ & (r & Hr & Hs) & _); rewrite (Hns r Hr) in Hs; discriminate|].
      assert (Hsome : forall r, In r rs -> st (cid r) = Some (held st (cid r))).
      { intros r Hr. pose proof (proj2 (Hok r Hr) (Hns r Hr)) as H. rewrite Ek in H. unfold held. destruct (st (cid r)); congruence. }
      unfold stack_buffers. rewrite (all_some_map_some _ (fun r : chunk V => held st (cid r))) by exact Hsome. cbn [bind].
      assert (Hr0 : In r0 rs) by (rewrite Ers; now left).
      set (n := Z.to_nat (buffer_len (st (cid r0)))).
      assert (Hheld : forall r, In r rs -> length (held st (cid r)) = n).
      { intros r Hr. unfold n. rewrite <- (Hlen r Hr), (Hsome r Hr). simpl. unfold zlen. now rewrite Nat2Z.id. }
      assert (EP : map (prepended st) rs = map (fun r => set_data r (held st (cid r) ++ cdat r)) rs).
      { apply map_ext_in. intros r Hr. unfold prepended. now rewrite (Hns r Hr). }
      rewrite EP. exists (n + w), h. split; auto. rewrite (longest_prepend n) by auto.
      split; [lia|]. split; [rewrite <- EP; auto|]. split; [lia|].
      unfold cat_front. cbn [bd bw bm batch_with]. rewrite !map_length, Nat.eqb_refl. f_equal. unfold batch_with. f_equal.
      * rewrite zip_map_l, !map_map. cbn [fst snd set_data cdat]. apply map_ext_in. intros r Hr.
        rewrite <- app_assoc. f_equal. f_equal. f_equal. rewrite app_length, (Hheld r Hr). lia.
      * unfold with_lens. cbn [ids sos eos lens chs of_rows]. unfold of_rows. rewrite !map_map.
        cbn [rid rsos reos rlen rch set_data cid csos ceos cdat cch]. f_equal.
        apply map_ext_in. intros r Hr. rewrite app_length, (Hheld r Hr). lia.
  - right. split.
    + intros (_ & _ & _ & Hemp). apply not_true_iff_false in Eeq. apply Eeq. apply forallb_forall. intros n Hn.
      assert (Hz : forall r, In r rs -> buffer_len (st (cid r)) = 0%Z).
      { intros r Hr. destruct (csos r) eqn:Es.
        - now rewrite (Hnew r Hr Es).
        - specialize (Hemp r Hr Es). unfold held in Hemp. destruct (st (cid r)); auto. now subst. }
      apply in_map_iff in Hn as (r & <- & Hr). rewrite (Hz r Hr). rewrite Hz; [reflexivity|]. rewrite Ers; now left.
    + exists (longest (map (prepended st) rs)), false. split; [discriminate|]. split; [lia|]. split; [auto|]. split; [auto|].
      rewrite unpad_eq by lia. cbn [bind]. fold (batch_of (zin c) false (map (prepended st) rs)).
      rewrite zip_map_l, map_map.
      rewrite (map_ext_in _ (fun r => single_of h (prepended st r))).
      * rewrite <- map_map. apply pad_stream_eq. rewrite Ers. discriminate.
      * intros r Hr. rewrite unflag_id by (unfold flags_ok in Hfl; rewrite Forall_forall in Hfl; now apply Hfl).
        destruct (Hok r Hr) as [H1 H2]. unfold cat_single, prepended. cbn [fst snd].
        destruct (csos r) eqn:Es.
        -- rewrite Hnew by auto. cbn [app]. unfold set_data. now destruct r.
        -- specialize (H2 eq_refl). rewrite Ek in H2. unfold held. destruct (st (cid r)) as [b|]; [|congruence].
           unfold single_of, with_lens. cbn [sd sm ids sos eos lens chs of_rows map brow_of rid rsos reos rlen rch set_data cid csos ceos cdat cch].
           f_equal. unfold of_rows. cbn [map rid rsos reos rlen rch brow_of]. 
           unfold set_data, zlen. cbn [cid csos ceos cdat cch]. rewrite app_length. f_equal. f_equal. lia.
Qed.

End ConvProofs.

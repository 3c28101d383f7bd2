(** Proofs about Random.v. *)

From Coq Require Import String List ZArith Bool Lia.
From Coq Require Import ZifyBool.
From Coq Require Import DecimalString DecimalFacts DecimalNat.
From Verif Require Import Py Meta MetaSpec Named NamedSpec NamedProofs NamedIndexProofs F32 F32Proofs Random.
Import ListNotations.
Open Scope Z_scope.

Lemma nearest_le z b q : 0 < b -> z <= q * b -> nearest z b <= q.
Proof.
  intros Hb H. unfold nearest. pose proof (Z.div_mod z b ltac:(lia)) as E. pose proof (Z.mod_pos_bound z b Hb) as R.
  assert (z / b <= q) by (apply Z.div_le_upper_bound; lia).
  destruct (Z.eq_dec (z / b) q) as [Eq|N].
  - assert (z mod b = 0) by nia. destruct (2 * (z mod b) <? b) eqn:Hq; lia.
  - destruct (2 * (z mod b) <? b); [lia|]. destruct (b <? 2 * (z mod b)); [lia|]. destruct (Z.even _); lia.
Qed.

Lemma nearest_lt z b q : 0 < b -> 2 * z < (2 * q + 1) * b -> nearest z b <= q.
Proof.
  intros Hb H. unfold nearest. pose proof (Z.div_mod z b ltac:(lia)) as E. pose proof (Z.mod_pos_bound z b Hb) as R.
  assert (z / b <= q) by nia.
  destruct (Z.eq_dec (z / b) q) as [Eq|N].
  - destruct (2 * (z mod b) <? b) eqn:Hq; nia.
  - destruct (2 * (z mod b) <? b); [lia|]. destruct (b <? 2 * (z mod b)); [lia|]. destruct (Z.even _); lia.
Qed.

Lemma nearest_ge z b q : 0 < b -> q * b <= z -> q <= nearest z b.
Proof.
  intros Hb H. unfold nearest. assert (q <= z / b) by (apply Z.div_le_lower_bound; lia).
  destruct (2 * (z mod b) <? b); [lia|]. destruct (b <? 2 * (z mod b)); [lia|]. destruct (Z.even _); lia.
Qed.

Section Prec.
Context (p : Z) (Hp : 1 <= p).

(** Rounding does not pass a number with p bits. *)
Lemma round_le a b m t g N D : 0 < a -> 0 < b -> 0 <= t -> 0 <= g -> m < 2 ^ p ->
  a * 2 ^ g <= m * 2 ^ t * b -> round_pos p a b = (N, D) -> 0 < D /\ N * 2 ^ g <= m * 2 ^ t * D.
Proof.
  intros Ha Hb Ht Hg Hm H. unfold round_pos. destruct (exponent_spec a b Ha Hb) as [E1 E2]. set (e := exponent a b) in *.
  set (s := e - (p - 1)). pose proof (pow_pos t Ht) as Pt. pose proof (pow_pos g Hg) as Pg. pose proof (pow_pos p ltac:(lia)) as Pp.
  assert (Hs : s + g <= t).
  { assert (e + g < p + t); [|unfold s; lia].
    destruct (Z.lt_ge_cases e 0) as [He|He].
    - specialize (E2 He). pose proof (pow_pos (- e) ltac:(lia)) as Pe.
      assert (2 ^ g < 2 ^ (p + t - e)).
      { replace (p + t - e) with (p + t + - e) by lia. rewrite !pow_split by lia.
        assert (b * 2 ^ g <= a * 2 ^ (- e) * 2 ^ g) by nia.
        assert (a * 2 ^ (- e) * 2 ^ g <= m * 2 ^ t * b * 2 ^ (- e)) by nia.
        assert (b * 2 ^ g < 2 ^ p * 2 ^ t * 2 ^ (- e) * b) by nia. nia. }
      apply Z.pow_lt_mono_r_iff in H0; lia.
    - specialize (E1 He). pose proof (pow_pos e He) as Pe.
      assert (2 ^ (e + g) < 2 ^ (p + t)).
      { rewrite !pow_split by lia. assert (b * 2 ^ e * 2 ^ g <= m * 2 ^ t * b) by nia. assert (b * (2 ^ e * 2 ^ g) < b * (2 ^ p * 2 ^ t)) by nia. nia. }
      apply Z.pow_lt_mono_r_iff in H0; lia. }
  destruct (0 <=? s) eqn:Es; intros [= <- <-].
  - assert (Et : 2 ^ t = 2 ^ (t - g - s) * 2 ^ g * 2 ^ s) by (rewrite <- !pow_split by lia; f_equal; lia).
    pose proof (pow_pos s ltac:(lia)) as Ps. pose proof (pow_pos (t - g - s) ltac:(lia)) as Pq.
    assert (nearest a (b * 2 ^ s) <= m * 2 ^ (t - g - s)).
    { apply nearest_le; [nia|]. rewrite Et in H. nia. }
    split; [lia|]. rewrite Et. nia.
  - assert (Et : 2 ^ t * 2 ^ (- s) = 2 ^ (t - g - s) * 2 ^ g) by (rewrite <- !pow_split by lia; f_equal; lia).
    pose proof (pow_pos (- s) ltac:(lia)) as Ps. pose proof (pow_pos (t - g - s) ltac:(lia)) as Pq.
    assert (nearest (a * 2 ^ (- s)) b <= m * 2 ^ (t - g - s)).
    { apply nearest_le; [nia|]. assert (a * 2 ^ (- s) * 2 ^ g <= m * 2 ^ (t - g - s) * b * 2 ^ g) by nia. nia. }
    split; [lia|]. rewrite <- Z.mul_assoc, Et. nia.
Qed.

(** Below the middle between m and m + 1, rounding does not pass m. *)
Lemma round_lt a b m t g N D : 0 < a -> 0 < b -> 0 <= t -> 0 <= g -> 2 ^ (p - 1) <= m < 2 ^ p ->
  2 * a * 2 ^ g < (2 * m + 1) * 2 ^ t * b -> round_pos p a b = (N, D) -> 0 < D /\ N * 2 ^ g <= m * 2 ^ t * D.
Proof.
  intros Ha Hb Ht Hg Hm H R. destruct (Z.le_gt_cases (a * 2 ^ g) (m * 2 ^ t * b)) as [L|G].
  { apply (round_le a b m t g N D); auto; lia. }
  revert R. unfold round_pos. destruct (exponent_spec a b Ha Hb) as [E1 E2]. set (e := exponent a b) in *.
  set (s := e - (p - 1)). pose proof (pow_pos t Ht) as Pt. pose proof (pow_pos g Hg) as Pg. pose proof (pow_pos (p - 1) ltac:(lia)) as Pp.
  assert (Epp : 2 ^ p = 2 * 2 ^ (p - 1)) by (rewrite <- (Z.pow_succ_r 2 (p - 1)) by lia; f_equal; lia).
  assert (Hs : s + g = t).
  { assert (e + g < p + t /\ p - 1 + t < e + 1 + g); [|unfold s; lia].
    destruct (Z.lt_ge_cases e 0) as [He|He].
    - specialize (E2 He). pose proof (pow_pos (- e) ltac:(lia)) as Pe.
      assert (A : 2 ^ g < 2 ^ (p + t + - e)).
      { rewrite !pow_split by lia.
        assert (b * 2 ^ g <= a * 2 ^ (- e) * 2 ^ g) by nia.
        assert (a * 2 ^ g < 2 ^ p * 2 ^ t * b) by nia.
        assert (b * 2 ^ g < 2 ^ p * 2 ^ t * 2 ^ (- e) * b) by nia. nia. }
      assert (B : 2 ^ (p - 1 + t + - e) < 2 ^ (1 + g)).
      { rewrite !pow_split by lia. change (2 ^ 1) with 2.
        assert (2 ^ (p - 1) * 2 ^ t * b < a * 2 ^ g) by nia.
        assert (2 ^ (p - 1) * 2 ^ t * 2 ^ (- e) * b < 2 * 2 ^ g * b) by nia. nia. }
      apply Z.pow_lt_mono_r_iff in A; try lia. apply Z.pow_lt_mono_r_iff in B; lia.
    - specialize (E1 He). pose proof (pow_pos e He) as Pe.
      assert (A : 2 ^ (e + g) < 2 ^ (p + t)).
      { rewrite !pow_split by lia. assert (a * 2 ^ g < 2 ^ p * 2 ^ t * b) by nia.
        assert (b * (2 ^ e * 2 ^ g) < b * (2 ^ p * 2 ^ t)) by nia. nia. }
      assert (B : 2 ^ (p - 1 + t) < 2 ^ (1 + e + g)).
      { rewrite !pow_split by lia. change (2 ^ 1) with 2.
        assert (2 ^ (p - 1) * 2 ^ t * b < a * 2 ^ g) by nia.
        assert (b * (2 ^ (p - 1) * 2 ^ t) < b * (2 * 2 ^ e * 2 ^ g)) by nia. nia. }
      apply Z.pow_lt_mono_r_iff in A; try lia. apply Z.pow_lt_mono_r_iff in B; lia. }
  destruct (0 <=? s) eqn:Es; intros [= <- <-].
  - assert (Et : 2 ^ t = 2 ^ g * 2 ^ s) by (rewrite <- !pow_split by lia; f_equal; lia).
    pose proof (pow_pos s ltac:(lia)) as Ps.
    assert (nearest a (b * 2 ^ s) <= m). { apply nearest_lt; [nia|]. rewrite Et in H. nia. }
    split; [lia|]. rewrite Et. nia.
  - assert (Et : 2 ^ t * 2 ^ (- s) = 2 ^ g) by (rewrite <- !pow_split by lia; f_equal; lia).
    pose proof (pow_pos (- s) ltac:(lia)) as Ps.
    assert (nearest (a * 2 ^ (- s)) b <= m).
    { apply nearest_lt; [nia|]. assert (2 * (a * 2 ^ (- s)) * 2 ^ g < (2 * m + 1) * b * 2 ^ g) by nia. nia. }
    split; [lia|]. rewrite <- Z.mul_assoc, Et. nia.
Qed.

(** An integer T > 0 rounded: M * 2^t / 2^g with M of p bits, less than T + 1 unit. *)
Lemma round_int_form T A B : 0 < T -> round_float p (T, 1) = (A, B) ->
  exists M t g, 0 <= t /\ 0 <= g /\ A = M * 2 ^ t /\ B = 2 ^ g /\ 2 ^ (p - 1) <= M <= 2 ^ p /\
    (M - 1) * 2 ^ t < T * 2 ^ g /\ 2 ^ (p - 1) * 2 ^ t <= T * 2 ^ g.
Proof.
  intros HT. unfold round_float. replace (T =? 0) with false by lia. replace (T <? 0) with false by lia. unfold round_pos.
  set (e := Z.log2 T). pose proof (Z.log2_spec T HT) as L. fold e in L. pose proof (Z.log2_nonneg T) as Le. fold e in Le.
  rewrite (exponent_int T e Le) by (rewrite Z.add_1_r; exact L). rewrite Z.pow_succ_r in L by lia.
  set (s := e - (p - 1)). pose proof (pow_pos (p - 1) ltac:(lia)) as Pp.
  assert (Epp : 2 ^ p = 2 * 2 ^ (p - 1)) by (rewrite <- (Z.pow_succ_r 2 (p - 1)) by lia; f_equal; lia).
  rewrite Z.mul_1_l. destruct (0 <=? s) eqn:Es; intros EQ; apply pair_equal_spec in EQ as [<- <-].
  - pose proof (pow_pos s ltac:(lia)) as Ps. assert (Ee : 2 ^ e = 2 ^ (p - 1) * 2 ^ s) by (rewrite <- pow_split by lia; f_equal; lia).
    exists (nearest T (2 ^ s)), s, 0. change (2 ^ 0) with 1.
    pose proof (nearest_half T (2 ^ s) Ps). pose proof (nearest_le T (2 ^ s) (2 ^ p) Ps ltac:(nia)).
    pose proof (nearest_ge T (2 ^ s) (2 ^ (p - 1)) Ps ltac:(nia)).
    split; [lia|]. split; [lia|]. split; [reflexivity|]. split; [reflexivity|]. split; [lia|]. split; nia.
  - pose proof (pow_pos (- s) ltac:(lia)) as Ps. pose proof (pow_pos e Le) as Pe.
    assert (Ee : 2 ^ (p - 1) = 2 ^ e * 2 ^ (- s)) by (rewrite <- pow_split by lia; f_equal; lia).
    exists (nearest (T * 2 ^ (- s)) 1), 0, (- s). change (2 ^ 0) with 1.
    replace (nearest (T * 2 ^ (- s)) 1) with (T * 2 ^ (- s)) by (rewrite <- (nearest_exact (T * 2 ^ (- s)) 1) at 1 by lia; f_equal; lia).
    split; [lia|]. split; [lia|]. split; [lia|]. split; [reflexivity|]. split; [nia|]. split; nia.
Qed.

End Prec.

Theorem rand_length_bound k T : 0 <= k < 2 ^ 24 -> 0 < T -> 0 <= rand_length k T < T.
Proof.
  intros Hk HT. unfold rand_length. destruct (round_float 24 (T, 1)) as [A B] eqn:EF.
  destruct (round_int_form 24 ltac:(lia) T A B HT EF) as (M & t & g & Ht & Hg & -> & -> & HM & U1 & U2).
  change (24 - 1) with 23 in *. pose proof (pow_pos t Ht) as Pt. pose proof (pow_pos g Hg) as Pg.
  unfold round_float. destruct (k * (M * 2 ^ t) =? 0) eqn:E0.
  { cbn. lia. }
  replace (k * (M * 2 ^ t) <? 0) with false by (symmetry; apply Z.ltb_ge; nia).
  destruct (round_pos 24 (k * (M * 2 ^ t)) (2 ^ 24 * 2 ^ g)) as [N D] eqn:ER.
  assert (Kp : 0 < k) by nia.
  assert (P24 : 2 ^ 24 = 2 * 2 ^ 23) by reflexivity. assert (P23 : 0 < 2 ^ 23) by reflexivity.
  assert (X : 0 < D /\ 0 <= N /\ N < T * D).
  { assert (N0 : 0 <= N).
    { clear -ER Kp HM Pt Pg P23. unfold round_pos in ER. set (a := k * (M * 2 ^ t)) in *. set (b := 2 ^ 24 * 2 ^ g) in *.
      assert (0 < a) by (unfold a; nia). assert (0 < b) by (unfold b; nia).
      destruct (0 <=? _) eqn:Es; apply pair_equal_spec in ER as [<- <-].
      - set (q := exponent a b - (24 - 1)) in *. pose proof (pow_pos q ltac:(lia)) as Pq.
        assert (0 <= nearest a (b * 2 ^ q)) by (apply nearest_ge; [nia|lia]). apply Z.mul_nonneg_nonneg; lia.
      - set (q := exponent a b - (24 - 1)) in *. pose proof (pow_pos (- q) ltac:(lia)) as Pq. apply nearest_ge; nia. }
    destruct (Z.eq_dec M (2 ^ 23)) as [E|E].
    - subst M. destruct (round_le 24 ltac:(lia) (k * (2 ^ 23 * 2 ^ t)) (2 ^ 24 * 2 ^ g) k t (g + 1) N D) as [HD HN]; auto; try nia.
      + rewrite pow_split by lia. change (2 ^ 1) with 2. nia.
      + split; [exact HD|]. split; [exact N0|]. rewrite pow_split in HN by lia. change (2 ^ 1) with 2 in HN.
        assert (k * 2 ^ t * D < 2 * (2 ^ 23 * 2 ^ t) * D) by nia.
        assert (2 * (2 ^ 23 * 2 ^ t) * D <= 2 * (T * 2 ^ g) * D) by nia.
        assert (N * (2 ^ g * 2) < T * D * (2 ^ g * 2)) by lia. nia.
    - destruct (round_lt 24 ltac:(lia) (k * (M * 2 ^ t)) (2 ^ 24 * 2 ^ g) (M - 1) t g N D) as [HD HN]; auto; try nia. }
  destruct X as (HD & HN & HL). split; [apply Z.div_pos; lia|]. apply Z.div_lt_upper_bound; lia.
Qed.

(** Rounding does not pass an integer from above. *)
Lemma round_ge a b n N D : 0 < a -> 0 < b -> n < 2 ^ 24 -> n * b <= a -> round_pos 24 a b = (N, D) -> n * D <= N.
Proof.
  intros Ha Hb Hn H. unfold round_pos. destruct (exponent_spec a b Ha Hb) as [E1 _]. set (e := exponent a b) in *. change (24 - 1) with 23.
  set (s := e - 23). destruct (0 <=? s) eqn:Es; intros EQ; apply pair_equal_spec in EQ as [<- <-].
  - pose proof (pow_pos s ltac:(lia)) as Ps. specialize (E1 ltac:(lia)).
    assert (Ee : 2 ^ e = 2 ^ 23 * 2 ^ s) by (rewrite <- pow_split by lia; f_equal; lia).
    assert (G : 2 ^ 23 <= nearest a (b * 2 ^ s)) by (apply nearest_ge; nia).
    destruct (Z.eq_dec s 0) as [E0|E0].
    + rewrite E0 in *. change (2 ^ 0) with 1 in *. rewrite !Z.mul_1_r in *. apply nearest_ge; lia.
    + assert (2 ^ s = 2 * 2 ^ (s - 1)) by (rewrite <- (Z.pow_succ_r 2 (s - 1)) by lia; f_equal; lia).
      pose proof (pow_pos (s - 1) ltac:(lia)). assert (2 ^ 24 = 2 * 2 ^ 23) by reflexivity. nia.
  - pose proof (pow_pos (- s) ltac:(lia)) as Ps. apply nearest_ge; nia.
Qed.

(** Every length is drawn by some k. *)
Theorem rand_length_reached n T : 0 <= n < T -> T <= 2 ^ 23 -> exists k, 0 <= k < 2 ^ 24 /\ rand_length k T = n.
Proof.
  intros Hn HT. set (k := - ((- (n * 2 ^ 24)) / T)).
  assert (K : n * 2 ^ 24 <= k * T < n * 2 ^ 24 + T).
  { pose proof (Z.div_mod (- (n * 2 ^ 24)) T ltac:(lia)). pose proof (Z.mod_pos_bound (- (n * 2 ^ 24)) T ltac:(lia)). unfold k. nia. }
  assert (P24 : 2 ^ 24 = 2 * 2 ^ 23) by reflexivity. assert (P23 : 0 < 2 ^ 23) by reflexivity.
  clearbody k. assert (Hk : 0 <= k < 2 ^ 24) by nia.
  exists k. split; [exact Hk|]. unfold rand_length. destruct (round_float 24 (T, 1)) as [A B] eqn:EF.
  destruct (round_int 24 ltac:(lia) T A B ltac:(lia) EF) as [HB ->].
  unfold round_float. destruct (k * (T * B) =? 0) eqn:E0.
  { cbn. assert (k = 0) by nia. assert (n = 0) by nia. lia. }
  assert (Kp : 0 < k) by (apply Z.eqb_neq in E0; destruct (Z.eq_dec k 0) as [->|]; [lia|lia]).
  replace (k * (T * B) <? 0) with false by (symmetry; apply Z.ltb_ge; nia).
  destruct (round_pos 24 (k * (T * B)) (2 ^ 24 * B)) as [N D] eqn:ER.
  pose proof (round_ge (k * (T * B)) (2 ^ 24 * B) n N D ltac:(nia) ltac:(nia) ltac:(lia) ltac:(nia) ER) as Lo.
  destruct (round_le 24 ltac:(lia) (k * (T * B)) (2 ^ 24 * B) (2 * n + 1) 0 1 N D) as [HD Hi]; auto; try nia.
  change (2 ^ 1) with 2 in Hi. change (2 ^ 0) with 1 in Hi.
  symmetry. apply (Z.div_unique_pos N D n (N - n * D)); lia.
Qed.

(* ---------- ids ---------- *)

Lemma to_uint_nonnil n : Nat.to_uint n <> Decimal.Nil.
Proof. rewrite <- (Unsigned.of_to n), Unsigned.to_of. apply DecimalFacts.unorm_nonnil. Qed.

Lemma str_of_inj i j : str_of i = str_of j -> i = j.
Proof.
  unfold str_of. intros E. apply (f_equal NilZero.uint_of_string) in E.
  rewrite !NilZero.usu in E by apply to_uint_nonnil. injection E as E. apply Unsigned.to_uint_inj. exact E.
Qed.

Lemma strs_nodup n s : NoDup (map str_of (seq s n)).
Proof.
  revert s. induction n as [|n IH]; intros s; cbn [seq map]; constructor; auto.
  intros H. apply in_map_iff in H as (j & E & Hj). apply str_of_inj in E. subst. apply in_seq in Hj. lia.
Qed.

(* ---------- the tensor ---------- *)

Section RandomProofs.
Context {V : Type}.

Lemma index_named n l : In (Some n) l -> exists d, names_index (Some n) l = Ok d /\ nth_error l d = Some (Some n).
Proof.
  induction l as [|a l IH]; intros H; [destruct H|]. cbn [names_index].
  destruct (dname_eqb a (Some n)) eqn:E.
  - exists 0%nat. split; auto. destruct a as [x|]; cbn in E; [|discriminate]. apply String.eqb_eq in E. now subst.
  - destruct H as [->|H]; [cbn in E; now rewrite String.eqb_refl in E|]. destruct (IH H) as (d & -> & Hd). exists (S d). auto.
Qed.

Definition dname_dec (a b : dname) : {a = b} + {a <> b}.
Proof. decide equality. apply string_dec. Defined.

Lemma index_unnamed n l : ~ In (Some n) l -> exists e, names_index (Some n) l = Err e.
Proof.
  induction l as [|a l IH]; intros H; cbn [names_index]; [eauto|].
  destruct (dname_eqb a (Some n)) eqn:E.
  - exfalso. apply H. left. destruct a as [x|]; cbn in E; [|discriminate]. apply String.eqb_eq in E. now subst.
  - destruct IH as [e ->]; [intros K; apply H; now right|]. exists e. reflexivity.
Qed.

Lemma rename_ok nd nms : nms <> [] -> rename nd nms = if Nat.eqb (length nms) nd && negb (names_dup nms) then Ok nms else Err RuntimeError.
Proof. destruct nms; [congruence|reflexivity]. Qed.

Lemma rename_res nd nms nn : rename nd nms = Ok nn -> (nms = [] /\ nn = repeat None nd) \/ (nn = nms /\ length nms = nd /\ names_distinct nms).
Proof.
  destruct nms as [|a nms]; [cbn; intros [= <-]; auto|]. rewrite rename_ok by discriminate.
  destruct (Nat.eqb (length (a :: nms)) nd && negb (names_dup (a :: nms))) eqn:E; [|discriminate]. intros [= <-]. right.
  apply andb_true_iff in E as [E1 E2]. apply Nat.eqb_eq in E1. apply negb_true_iff in E2. apply names_dup_false in E2. auto.
Qed.

Theorem rand_ok (t : @tensor V) nms ul us ue db dl : length nms = ndim t -> names_distinct nms ->
  nth_error nms db = Some (Some BATCH) -> nth_error nms dl = Some (Some LENGTH) ->
  let rows := seq 0 (Z.to_nat (size t db)) in
  rand_stream_tensor t nms ul us ue = Ok (mkSt t nms (mkMeta (map str_of rows) (map (fun i => rand_flag (us i)) rows)
          (map (fun i => rand_flag (ue i)) rows) (map (fun i => rand_length (ul i) (size t dl)) rows) None)).
Proof.
  intros Hl Hd Hb HL rows. pose proof Hd as Hd'. apply names_dup_false in Hd'.
  assert (K : forall n d, nth_error nms d = Some (Some n) -> names_index (Some n) nms = Ok d).
  { intros n d H. destruct (index_named n nms) as (d' & E & N); [eapply nth_error_In; eauto|]. rewrite E. f_equal. eapply Hd; eauto. }
  unfold rand_stream_tensor, size_named. rewrite rename_ok by (intros ->; destruct db; discriminate).
  rewrite Hl, Nat.eqb_refl, Hd'. cbn [negb andb bind]. rewrite (K _ _ Hb), (K _ _ HL). cbn [bind].
  unfold make_meta. rewrite !map_length, !Nat.eqb_refl. reflexivity.
Qed.

Theorem rand_err (t : @tensor V) nms ul us ue :
  ~ (length nms = ndim t /\ names_distinct nms /\ In (Some BATCH) nms /\ In (Some LENGTH) nms) ->
  rand_stream_tensor t nms ul us ue = Err RuntimeError.
Proof.
  intros H. unfold rand_stream_tensor. destruct (rename (ndim t) nms) as [nn|e] eqn:E; cbn [bind].
  - assert (NN : ~ (In (Some BATCH) nn /\ In (Some LENGTH) nn)).
    { intros [N1 N2]. apply rename_res in E as [[_ ->]|(-> & E1 & E2)]; [apply repeat_spec in N1; discriminate|tauto]. }
    unfold size_named. destruct (names_index (Some BATCH) nn) as [db|] eqn:Eb; cbn [bind]; [|reflexivity].
    destruct (names_index (Some LENGTH) nn) as [dl|] eqn:El; cbn [bind]; [|reflexivity]. exfalso. apply NN.
    assert (K : forall n d, names_index (Some n) nn = Ok d -> In (Some n) nn).
    { intros n d Ed. destruct (in_dec (fun a b => dname_dec a b) (Some n) nn) as [I|I]; auto. apply index_unnamed in I as [e I]. congruence. }
    split; eapply K; eauto.
  - destruct nms as [|a nms]; [discriminate|]. rewrite rename_ok in E by discriminate.
    destruct (Nat.eqb _ _ && _); [discriminate|]. now injection E as <-.
Qed.


Lemma map_nth_seq : forall (s : list bool) f, (forall b, rand_flag (f b) = b) ->
  map (fun i => rand_flag (f (nth i s false))) (seq 0 (length s)) = s.
Proof.
  intros s f Hf. induction s as [|b s IH]; [reflexivity|]. cbn [length seq map nth]. rewrite Hf. f_equal.
  rewrite <- seq_shift, map_map. exact IH.
Qed.

Lemma rand_flags : forall (t : @tensor V) nms ul db dl (s e : list bool),
  length nms = length (shp t) -> names_distinct nms ->
  nth_error nms db = Some (Some BATCH) -> nth_error nms dl = Some (Some LENGTH) ->
  Z.of_nat (length s) = nth db (shp t) 0 -> length e = length s ->
  exists us ue x, (forall i, 0 <= us i < 2 ^ 24 /\ 0 <= ue i < 2 ^ 24) /\
    rand_stream_tensor t nms ul us ue = Ok x /\ sos (smeta x) = s /\ eos (smeta x) = e.
Proof.
  intros t nms ul db dl s e Hl Hd Hb HL Hs He.
  pose (f := fun b : bool => if b then 0 else 2 ^ 23).
  assert (Hf : forall b, rand_flag (f b) = b) by now intros [].
  assert (Hr : forall b, 0 <= f b < 2 ^ 24) by (intros []; unfold f; lia).
  exists (fun i => f (nth i s false)), (fun i => f (nth i e false)). eexists.
  split; [auto|]. split; [exact (rand_ok t nms ul _ _ db dl Hl Hd Hb HL)|]. cbn [smeta sos eos]. unfold size.
  rewrite <- Hs, Nat2Z.id. split; [now apply map_nth_seq|]. rewrite <- He. now apply map_nth_seq.
Qed.

End RandomProofs.

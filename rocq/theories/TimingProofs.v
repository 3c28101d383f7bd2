(** Lemmas about Timing.v. *)

From Coq Require Import String Ascii List ZArith QArith Qabs Qround Qpower Bool Lia Lqa Permutation.
From Coq Require Import ZifyBool.
From Verif Require Import Py Timing TimingSpec.
Import ListNotations.
Open Scope Z_scope.

Lemma ten_pos k : (0 < ten k)%Q.
Proof. unfold ten. apply Qpower_0_lt. reflexivity. Qed.

Lemma ten_plus a b : (ten (a + b) == ten a * ten b)%Q.
Proof. unfold ten. apply Qpower_plus. discriminate. Qed.

Lemma ten_Z k : 0 <= k -> (ten k == inject_Z (10 ^ k))%Q.
Proof.
  intros H. unfold ten. pattern k. apply natlike_ind; [reflexivity| |exact H]. intros x Hx IH.
  unfold Z.succ. rewrite Qpower_plus by discriminate. rewrite IH. rewrite Z.pow_add_r by lia. rewrite inject_Z_mult. reflexivity.
Qed.

Lemma ten_neg k : (ten k * ten (- k) == 1)%Q.
Proof. rewrite <- ten_plus. replace (k + - k) with 0 by lia. reflexivity. Qed.

Lemma ten_mono a b : a <= b -> (ten a <= ten b)%Q.
Proof.
  intros H. replace b with (a + (b - a)) by lia. rewrite ten_plus, (ten_Z (b - a)) by lia.
  assert (1 <= 10 ^ (b - a)) by (change 1 with (10 ^ 0); apply Z.pow_le_mono_r; lia).
  assert (1 <= inject_Z (10 ^ (b - a)))%Q by (change 1%Q with (inject_Z 1); rewrite <- Zle_Qle; lia).
  pose proof (ten_pos a). nra.
Qed.

(* ---------- the decimal exponent ---------- *)

Lemma tens_up_spec fuel : forall a b, 0 < b -> b <= a -> a < b * 10 ^ Z.of_nat fuel * 10 ->
  let k := Z.of_nat (tens_up fuel a b) in b * 10 ^ k <= a < b * 10 ^ (k + 1).
Proof.
  induction fuel as [|f IH]; intros a b Hb H1 H2; cbn [tens_up].
  - cbn in *. lia.
  - destruct (10 * b <=? a) eqn:E.
    + rewrite Nat2Z.inj_succ, Z.pow_succ_r in H2 by lia.
      specialize (IH a (10 * b) ltac:(lia) ltac:(lia) ltac:(lia)). cbn zeta in *. rewrite Nat2Z.inj_succ.
      set (j := Z.of_nat (tens_up f a (10 * b))) in *. assert (0 <= j) by (unfold j; lia).
      replace (Z.succ j + 1) with (Z.succ (j + 1)) by lia. rewrite !(Z.pow_succ_r 10) by lia.
      rewrite (Z.pow_add_r 10 j 1) in * by lia. change (10 ^ 1) with 10 in *. lia.
    + cbn. lia.
Qed.

Lemma tens_down_spec fuel : forall a b, 0 < a -> a < b -> b <= a * 10 ^ Z.of_nat fuel ->
  let k := Z.of_nat (tens_down fuel a b) in 0 < k /\ b <= a * 10 ^ k /\ a * 10 ^ (k - 1) < b.
Proof.
  induction fuel as [|f IH]; intros a b Ha H1 H2; cbn [tens_down].
  - cbn in *. lia.
  - destruct (a <? b) eqn:E; [|lia]. rewrite Nat2Z.inj_succ, Z.pow_succ_r in H2 by lia. cbn zeta. rewrite Nat2Z.inj_succ.
    destruct (Z.lt_ge_cases (10 * a) b) as [L|L].
    + specialize (IH (10 * a) b ltac:(lia) L ltac:(lia)). cbn zeta in IH.
      set (j := Z.of_nat (tens_down f (10 * a) b)) in *. destruct IH as (I1 & I2 & I3). rewrite Z.pow_succ_r by lia.
      replace (Z.succ j - 1) with (Z.succ (j - 1)) by lia. rewrite (Z.pow_succ_r 10 (j - 1)) by lia. lia.
    + assert (tens_down f (10 * a) b = 0%nat) as ->. { destruct f; [reflexivity|]. cbn [tens_down]. destruct (10 * a <? b) eqn:F; [lia|reflexivity]. }
      cbn. lia.
Qed.

Lemma pow_log n : 0 < n -> n < 10 ^ Z.of_nat (S (Z.to_nat (Z.log2 n))).
Proof.
  intros H. pose proof (Z.log2_nonneg n). pose proof (Z.log2_spec n H). rewrite Nat2Z.inj_succ, Z2Nat.id by lia.
  assert (2 ^ Z.succ (Z.log2 n) <= 10 ^ Z.succ (Z.log2 n)) by (apply Z.pow_le_mono_l; lia). lia.
Qed.

Lemma Qmake_inject a b : 0 < b -> (a # Z.to_pos b == inject_Z a / inject_Z b)%Q.
Proof. intros H. rewrite Qmake_Qdiv. rewrite Z2Pos.id by lia. reflexivity. Qed.

(** 10^x <= a / b < 10^(x + 1) *)
Lemma exponent10_spec a b : 0 < a -> 0 < b ->
  let x := exponent10 a b in
  (ten x * inject_Z b <= inject_Z a)%Q /\ (inject_Z a < ten (x + 1) * inject_Z b)%Q.
Proof.
  intros Ha Hb. unfold exponent10. destruct (b <=? a) eqn:E; cbn zeta.
  - pose proof (pow_log a Ha) as P. pose proof (tens_up_spec (S (Z.to_nat (Z.log2 a))) a b Hb ltac:(lia) ltac:(nia)) as [U1 U2].
    set (k := Z.of_nat (tens_up _ a b)) in *. rewrite !ten_Z by (unfold k; lia). rewrite <- !inject_Z_mult, <- Zle_Qle, <- Zlt_Qlt. lia.
  - pose proof (pow_log b Hb) as P. pose proof (tens_down_spec (S (Z.to_nat (Z.log2 b))) a b Ha ltac:(lia) ltac:(nia)) as (U0 & U1 & U2).
    set (k := Z.of_nat (tens_down _ a b)) in *. pose proof (ten_neg k) as N1. pose proof (ten_neg (k - 1)) as N2.
    replace (- (k - 1)) with (- k + 1) in N2 by lia. pose proof (ten_pos (- k)). pose proof (ten_pos (- k + 1)).
    rewrite Zle_Qle in U1. rewrite Zlt_Qlt in U2. rewrite inject_Z_mult in U1, U2.
    rewrite <- (ten_Z k) in U1 by lia. rewrite <- (ten_Z (k - 1)) in U2 by lia.
    set (A := inject_Z a) in *. set (B := inject_Z b) in *. split.
    + assert (A == ten (- k) * (A * ten k))%Q as -> by (transitivity (A * (ten k * ten (- k)))%Q; [rewrite N1|]; ring). nra.
    + assert (A == ten (- k + 1) * (A * ten (k - 1)))%Q as -> by (transitivity (A * (ten (k - 1) * ten (- k + 1)))%Q; [rewrite N2|]; ring). nra.
Qed.

(* ---------- rounding ---------- *)

Lemma nearest_half a b : 0 < b -> 2 * Z.abs (a - b * nearest a b) <= b.
Proof.
  intros H. unfold nearest. pose proof (Z.div_mod a b ltac:(lia)) as D. pose proof (Z.mod_pos_bound a b H).
  destruct (2 * (a mod b) <? b) eqn:E1; [|destruct (b <? 2 * (a mod b)) eqn:E2; [|destruct (Z.even (a / b))]]; lia.
Qed.

Lemma nearest_best a b j : 0 < b -> Z.abs (a - b * nearest a b) <= Z.abs (a - b * j).
Proof.
  intros H. pose proof (nearest_half a b H). set (n := nearest a b) in *. destruct (Z.eq_dec j n) as [->|N]; [lia|].
  destruct (Z.lt_ge_cases j n); nia.
Qed.

Lemma few_digits_eq p q q' : (q == q')%Q -> few_digits p q -> few_digits p q'.
Proof. intros E (m & k & H1 & H2). exists m, k. split; [exact H1|]. now rewrite <- E. Qed.

Lemma closest_multiple p x X n r : 1 <= p -> (ten X <= x)%Q ->
  (forall j, Qabs (x - inject_Z n * ten (X - p + 1)) <= Qabs (x - inject_Z j * ten (X - p + 1)))%Q ->
  (r == inject_Z n * ten (X - p + 1))%Q -> few_digits p r -> closest p x r.
Proof.
  intros Hp HX Hn Hr Hf. split; [exact Hf|]. intros y (m & k & H1 & H2). rewrite Hr, H2. clear Hr H2 r Hf y.
  destruct (Z.le_gt_cases (X - p + 1) k) as [L|L].
  - eapply Qle_trans; [apply (Hn (m * 10 ^ (k - (X - p + 1))))|]. apply Qle_lteq. right. apply Qabs_wd.
    rewrite inject_Z_mult, <- ten_Z by lia. rewrite <- Qmult_assoc, <- ten_plus. replace (k - (X - p + 1) + (X - p + 1)) with k by lia. reflexivity.
  - eapply Qle_trans; [apply (Hn (10 ^ (p - 1)))|]. rewrite <- ten_Z by lia. rewrite <- ten_plus. replace (p - 1 + (X - p + 1)) with X by lia.
    rewrite Qabs_pos by lra.
    assert (inject_Z m * ten k <= ten X)%Q.
    { apply Qle_trans with (inject_Z (10 ^ p) * ten k)%Q.
      - assert (inject_Z m <= inject_Z (10 ^ p))%Q by (rewrite <- Zle_Qle; lia). pose proof (ten_pos k). nra.
      - rewrite <- ten_Z by lia. rewrite <- ten_plus. apply ten_mono. lia. }
    rewrite Qabs_pos by lra. lra.
Qed.

Lemma Qabs_scale c a : (0 <= c)%Q -> (Qabs (c * a) == c * Qabs a)%Q.
Proof. intros H. rewrite Qabs_Qmult, (Qabs_pos c H). reflexivity. Qed.

Lemma significand_spec p a b m e : 1 <= p -> 0 < a -> 0 < b -> significand p a b = (m, e) ->
  10 ^ (p - 1) <= m < 10 ^ p /\ closest p (inject_Z a / inject_Z b) (inject_Z m * ten (e - p + 1)).
Proof.
  intros Hp Ha Hb. unfold significand. set (x := exponent10 a b). set (s := p - 1 - x).
  set (N := a * 10 ^ Z.max 0 s). set (D := b * 10 ^ Z.max 0 (- s)). intros E.
  assert (Pp : 0 < 10 ^ Z.max 0 (- s)) by (apply Z.pow_pos_nonneg; lia). assert (HD : 0 < D) by (unfold D; nia).
  pose proof (exponent10_spec a b Ha Hb) as [X1 X2]. fold x in X1, X2.
  set (u := ten (x - p + 1)). assert (Hu : (0 < u)%Q) by apply ten_pos.
  assert (HB : (0 < inject_Z b)%Q) by (change 0%Q with (inject_Z 0); rewrite <- Zlt_Qlt; lia).
  assert (HDq : (0 < inject_Z D)%Q) by (change 0%Q with (inject_Z 0); rewrite <- Zlt_Qlt; lia).
  assert (EQ : (inject_Z a * inject_Z D == inject_Z b * (inject_Z N * u))%Q).
  { unfold N, D, u. rewrite !inject_Z_mult, <- !ten_Z by lia. replace (x - p + 1) with (- s) by (unfold s; lia).
    assert (ten (Z.max 0 (- s)) == ten (Z.max 0 s) * ten (- s))%Q as ->; [|ring].
    rewrite <- ten_plus. replace (Z.max 0 s + - s) with (Z.max 0 (- s)) by lia. reflexivity. }
  assert (EX : (inject_Z a / inject_Z b == u / inject_Z D * inject_Z N)%Q).
  { field_simplify_eq; [|lra]. rewrite EQ. ring. }
  set (n := nearest N D) in *.
  assert (Hn : forall j, (Qabs (inject_Z a / inject_Z b - inject_Z n * u) <= Qabs (inject_Z a / inject_Z b - inject_Z j * u))%Q).
  { intros j. assert (G : forall i, (inject_Z a / inject_Z b - inject_Z i * u == u / inject_Z D * (inject_Z (N - D * i)))%Q).
    { intros i. rewrite EX. unfold Z.sub. rewrite inject_Z_plus, inject_Z_opp, inject_Z_mult. field. lra. }
    assert (C : (0 < u / inject_Z D)%Q) by (apply Qlt_shift_div_l; lra).
    rewrite !G, !Qabs_scale by lra. apply Qmult_le_l; [exact C|].
    pose proof (nearest_best N D j HD) as B. fold n in B. unfold Qabs, inject_Z. unfold Qle. cbn. lia. }
  assert (B1 : 10 ^ (p - 1) * D <= N).
  { rewrite Zle_Qle, inject_Z_mult, <- ten_Z by lia. apply Qmult_le_l with (z := (inject_Z b * u)%Q); [nra|].
    assert (T : (ten (p - 1) * u == ten x)%Q) by (unfold u; rewrite <- ten_plus; replace (p - 1 + (x - p + 1)) with x by lia; reflexivity).
    setoid_replace (inject_Z b * u * (ten (p - 1) * inject_Z D))%Q with ((ten (p - 1) * u) * inject_Z b * inject_Z D)%Q by ring.
    setoid_replace (inject_Z b * u * inject_Z N)%Q with (inject_Z b * (inject_Z N * u))%Q by ring. rewrite T, <- EQ. nra. }
  assert (B2 : N < 10 ^ p * D).
  { rewrite Zlt_Qlt, inject_Z_mult, <- ten_Z by lia. apply Qmult_lt_l with (z := (inject_Z b * u)%Q); [nra|].
    assert (T : (ten p * u == ten (x + 1))%Q) by (unfold u; rewrite <- ten_plus; replace (p + (x - p + 1)) with (x + 1) by lia; reflexivity).
    setoid_replace (inject_Z b * u * (ten p * inject_Z D))%Q with ((ten p * u) * inject_Z b * inject_Z D)%Q by ring.
    setoid_replace (inject_Z b * u * inject_Z N)%Q with (inject_Z b * (inject_Z N * u))%Q by ring. rewrite T, <- EQ. nra. }
  assert (B3 : 10 ^ (p - 1) <= n <= 10 ^ p).
  { pose proof (nearest_half N D HD) as H. fold n in H. split; nia. }
  assert (PP : 10 ^ p = 10 * 10 ^ (p - 1)) by (rewrite <- Z.pow_succ_r by lia; f_equal; lia).
  assert (P1 : 0 < 10 ^ (p - 1)) by (apply Z.pow_pos_nonneg; lia).
  assert (X3 : (ten x <= inject_Z a / inject_Z b)%Q) by (apply Qle_shift_div_l; [exact HB|exact X1]).
  destruct (n =? 10 ^ p) eqn:EN; injection E as <- <-.
  - split; [lia|]. apply (closest_multiple p _ x n); [exact Hp|exact X3|exact Hn| |].
    + assert (n = 10 ^ p) as -> by lia. rewrite <- !ten_Z by lia. rewrite <- !ten_plus. replace (p - 1 + (x + 1 - p + 1)) with (p + (x - p + 1)) by lia. reflexivity.
    + exists (10 ^ (p - 1)), (x + 1 - p + 1). split; [lia|reflexivity].
  - split; [lia|]. apply (closest_multiple p _ x n); [exact Hp|exact X3|exact Hn|reflexivity|]. exists n, (x - p + 1). split; [lia|reflexivity].
Qed.

(* ---------- reading what is written ---------- *)

Lemma append_assoc' (a b c : string) : ((a ++ b) ++ c = a ++ (b ++ c))%string.
Proof. induction a as [|x a IH]; [reflexivity|]. cbn [append]. now rewrite IH. Qed.

Lemma append_nil' (a : string) : (a ++ EmptyString = a)%string.
Proof. induction a as [|x a IH]; [reflexivity|]. cbn [append]. now rewrite IH. Qed.

Lemma length_append (a b : string) : String.length (a ++ b) = (String.length a + String.length b)%nat.
Proof. induction a as [|x a IH]; [reflexivity|]. cbn [append String.length]. now rewrite IH. Qed.

Lemma digit_char_of d : 0 <= d < 10 -> digit_of (digit_char d) = Some d.
Proof.
  intros H. assert (d = 0 \/ d = 1 \/ d = 2 \/ d = 3 \/ d = 4 \/ d = 5 \/ d = 6 \/ d = 7 \/ d = 8 \/ d = 9) as C by lia.
  repeat destruct C as [->|C]; try reflexivity. subst d. reflexivity.
Qed.

Lemma read_digits k : forall n v c t, 0 <= n < 10 ^ Z.of_nat k ->
  read (digits k n ++ t)%string v c = read t (v * 10 ^ Z.of_nat k + n) (c + Z.of_nat k).
Proof.
  induction k as [|k IH]; intros n v c t H.
  - cbn [digits append]. change (10 ^ Z.of_nat 0) with 1 in *. f_equal; lia.
  - rewrite Nat2Z.inj_succ, Z.pow_succ_r in * by lia. cbn [digits]. rewrite append_assoc'. cbn [append].
    pose proof (Z.mod_pos_bound n 10 ltac:(lia)). pose proof (Z.div_mod n 10 ltac:(lia)).
    rewrite IH by lia. cbn [read]. rewrite digit_char_of by lia. f_equal; lia.
Qed.

Fixpoint zeros (z : nat) : string := match z with O => EmptyString | S z' => String "0" (zeros z') end.

Lemma strip0_zeros s : exists z, s = (strip0 s ++ zeros z)%string.
Proof.
  induction s as [|c t [z IH]]; [exists 0%nat; reflexivity|]. cbn [strip0]. destruct (strip0 t) as [|d t'] eqn:E.
  - destruct (Ascii.eqb c "0") eqn:Ec.
    + apply Ascii.eqb_eq in Ec as ->. exists (S z). cbn [append zeros] in *. now rewrite <- IH.
    + exists z. cbn [append] in *. now rewrite <- IH.
  - exists z. cbn [append] in *. now rewrite <- IH.
Qed.

(** Only digits: reading gets to the end. *)
Definition only_digits (s : string) : Prop := forall v n, exists v' n', read s v n = (v', n', EmptyString).

Lemma digits_only k n : 0 <= n < 10 ^ Z.of_nat k -> only_digits (digits k n).
Proof. intros H v c. rewrite <- (append_nil' (digits k n)), read_digits by exact H. cbn [read]. eauto. Qed.

Lemma digits_length k : forall n, String.length (digits k n) = k.
Proof. induction k as [|k IH]; intros n; [reflexivity|]. cbn [digits]. rewrite length_append, IH. cbn. lia. Qed.

Lemma read_zeros z : forall v n, read (zeros z) v n = (v * 10 ^ Z.of_nat z, n + Z.of_nat z, EmptyString).
Proof.
  induction z as [|z IH]; intros v n; cbn [zeros read].
  - change (10 ^ Z.of_nat 0) with 1. f_equal. f_equal; lia.
  - change (digit_of "0") with (Some 0). cbn match. rewrite IH, Nat2Z.inj_succ, Z.pow_succ_r by lia. f_equal. f_equal; lia.
Qed.

(** Digits in front of something else. *)
Lemma read_app_stop s t : forall v n,
  read (s ++ t)%string v n = match read s v n with (v', n', EmptyString) => read t v' n' | (v', n', r) => (v', n', (r ++ t)%string) end.
Proof.
  induction s as [|c s IH]; intros v n; [reflexivity|]. cbn [append read]. destruct (digit_of c) eqn:E; [apply IH|]. reflexivity.
Qed.

Lemma strip0_read k n v : 0 <= n < 10 ^ Z.of_nat k ->
  exists v' j, read (strip0 (digits k n)) v 0 = (v', j, EmptyString) /\ 0 <= j <= Z.of_nat k /\
    v' * 10 ^ (Z.of_nat k - j) = v * 10 ^ Z.of_nat k + n /\ j = Z.of_nat (String.length (strip0 (digits k n))).
Proof.
  intros H. destruct (strip0_zeros (digits k n)) as [z E]. pose proof (digits_length k n) as L.
  pose proof (read_digits k n v 0 EmptyString H) as R. rewrite append_nil' in R. cbn [read] in R.
  rewrite E in R at 1. rewrite E, length_append in L. rewrite read_app_stop in R.
  assert (Z1 : forall z, String.length (zeros z) = z) by (intros y; induction y; cbn; congruence). rewrite Z1 in L.
  set (s := strip0 (digits k n)) in *. destruct (read s v 0) as [[v' j] r] eqn:Er.
  destruct r as [|c r]; [|exfalso; cbn [append] in R; congruence]. rewrite read_zeros in R. injection R as R1 R2.
  exists v', j. split; [reflexivity|]. assert (Z.of_nat k - j = Z.of_nat z) as -> by lia. split; [lia|]. split; [lia|]. lia.
Qed.

Definition stops (s : string) : Prop := s = EmptyString \/ exists t, s = String "e" t.

Lemma decimal_read w f m rest e : (1 <= w)%nat -> 0 <= m < 10 ^ (Z.of_nat w + Z.of_nat f) -> stops rest -> read_exponent rest = Some e ->
  exists q, read_unsigned (decimal w f m ++ rest)%string = Some q /\ (q == inject_Z m * ten (e - Z.of_nat f))%Q.
Proof.
  intros Hw Hm Hs He. unfold decimal, read_unsigned. set (F := 10 ^ Z.of_nat f). assert (HF : 0 < F) by (apply Z.pow_pos_nonneg; lia).
  rewrite Z.pow_add_r in Hm by lia. fold F in Hm.
  pose proof (Z.mod_pos_bound m F HF) as M1. pose proof (Z.div_mod m F ltac:(lia)) as M2.
  assert (D1 : 0 <= m / F < 10 ^ Z.of_nat w). { split; [apply Z.div_pos; lia|]. apply Z.div_lt_upper_bound; lia. }
  rewrite append_assoc', read_digits by exact D1.
  destruct (strip0_read f (m mod F) (0 * 10 ^ Z.of_nat w + m / F) M1) as (v' & j & R & J1 & J2 & J3).
  fold F in J2.
  assert (ST : forall v n, read rest v n = (v, n, rest)). { intros v n. destruct Hs as [->|(t & ->)]; reflexivity. }
  destruct (strip0 (digits f (m mod F))) as [|c t] eqn:ES.
  - cbn [append]. rewrite ST. cbn [read] in R. injection R as R1 R2. destruct (0 + Z.of_nat w =? 0) eqn:E0; [lia|].
    assert (match rest with String "." t => read t (0 * 10 ^ Z.of_nat w + m / F) 0 | _ => (0 * 10 ^ Z.of_nat w + m / F, 0, rest) end =
            (0 * 10 ^ Z.of_nat w + m / F, 0, rest)) as ->. { destruct Hs as [->|(t & ->)]; reflexivity. }
    rewrite He. eexists. split; [reflexivity|]. rewrite R1. subst j. rewrite Z.sub_0_r in J2. fold F in J2.
    replace m with (v' * F) by lia. rewrite inject_Z_mult. unfold F. rewrite <- ten_Z by lia. rewrite <- Qmult_assoc, <- ten_plus.
    replace (Z.of_nat f + (e - Z.of_nat f)) with (e - 0) by lia. reflexivity.
  - change (String "." (String c t) ++ rest)%string with (String "." (String c t ++ rest)). cbn [read]. change (digit_of ".") with (@None Z). cbn match.
    destruct (0 + Z.of_nat w =? 0) eqn:E0; [lia|]. rewrite read_app_stop, R, ST, He.
    eexists. split; [reflexivity|]. replace m with (v' * 10 ^ (Z.of_nat f - j)) by lia.
    rewrite inject_Z_mult, <- ten_Z by lia. rewrite <- Qmult_assoc, <- ten_plus. replace (Z.of_nat f - j + (e - Z.of_nat f)) with (e - j) by lia. reflexivity.
Qed.

Lemma exponent_text_read x : stops (exponent_text x) /\ read_exponent (exponent_text x) = Some x.
Proof.
  unfold exponent_text. split; [right; eexists; reflexivity|].
  set (k := Nat.max 2 (S (Z.to_nat (exponent10 (Z.max 1 (Z.abs x)) 1)))).
  assert (B : 0 <= Z.abs x < 10 ^ Z.of_nat k).
  { split; [lia|]. pose proof (exponent10_spec (Z.max 1 (Z.abs x)) 1 ltac:(lia) ltac:(lia)) as [_ U].
    set (y := exponent10 (Z.max 1 (Z.abs x)) 1) in *.
    assert (Y : 0 <= y). { unfold y, exponent10. destruct (1 <=? Z.max 1 (Z.abs x)) eqn:E; lia. }
    rewrite ten_Z in U by lia. change (inject_Z 1) with 1%Q in U. rewrite Qmult_1_r in U. rewrite <- Zlt_Qlt in U.
    assert (10 ^ (y + 1) <= 10 ^ Z.of_nat k) by (apply Z.pow_le_mono_r; unfold k; lia). lia. }
  pose proof (read_digits k (Z.abs x) 0 0 EmptyString B) as R. rewrite append_nil' in R. cbn [read] in R.
  assert (K : (0 + Z.of_nat k =? 0) = false) by (unfold k; lia).
  destruct (x <? 0) eqn:E; cbn [append read_exponent]; rewrite R, K; cbn; f_equal; lia.
Qed.

Lemma format_g_denotes precision x : let p := Z.max 1 precision in
  exists r, denotes (format_g precision x) = Some r /\ closest p x r.
Proof.
  intros p. unfold format_g. fold p. assert (Hp : 1 <= p) by (unfold p; lia). destruct x as [a b]. cbn [Qnum Qden].
  assert (PP : 0 < 10 ^ p) by (apply Z.pow_pos_nonneg; lia).
  destruct (a =? 0) eqn:E0.
  { exists (inject_Z 0 * ten 0)%Q. split; [reflexivity|]. assert (a = 0) as -> by lia. split; [exists 0, 0; split; [lia|reflexivity]|].
    intros y _. assert (Qabs ((0 # b) - inject_Z 0 * ten 0) == 0)%Q as -> by (unfold Qeq; cbn; lia). apply Qabs_nonneg. }
  destruct (significand p (Z.abs a) (Z.pos b)) as [m e] eqn:ES.
  destruct (significand_spec p (Z.abs a) (Z.pos b) m e Hp ltac:(lia) ltac:(lia) ES) as [[M1 M2] C].
  match goal with |- context [((if _ then _ else EmptyString) ++ ?X)%string] => set (body := X) end.
  assert (P0 : 0 < 10 ^ (p - 1)) by (apply Z.pow_pos_nonneg; lia).
  assert (HB : exists q, read_unsigned body = Some q /\ (q == inject_Z m * ten (e - p + 1))%Q).
  { unfold body. destruct ((-4 <=? e) && (e <? p)) eqn:EB.
    - destruct (decimal_read (Z.to_nat (Z.max 1 (e + 1))) (Z.to_nat (p - 1 - e)) m EmptyString 0) as (q & Q1 & Q2); [lia| |left; reflexivity|reflexivity|].
      + rewrite !Z2Nat.id by lia. assert (10 ^ p <= 10 ^ (Z.max 1 (e + 1) + (p - 1 - e))) by (apply Z.pow_le_mono_r; lia). lia.
      + rewrite append_nil' in Q1. exists q. split; [exact Q1|]. rewrite Q2, Z2Nat.id by lia. replace (0 - (p - 1 - e)) with (e - p + 1) by lia. reflexivity.
    - destruct (exponent_text_read e) as [S1 S2].
      destruct (decimal_read 1 (Z.to_nat (p - 1)) m (exponent_text e) e) as (q & Q1 & Q2); [lia| |exact S1|exact S2|].
      + rewrite Z2Nat.id by lia. replace (Z.of_nat 1 + (p - 1)) with p by lia. lia.
      + exists q. split; [exact Q1|]. rewrite Q2, Z2Nat.id by lia. replace (e - (p - 1)) with (e - p + 1) by lia. reflexivity. }
  destruct HB as (q & Q1 & Q2). assert (CQ : closest p (inject_Z (Z.abs a) / inject_Z (Z.pos b)) q).
  { destruct C as [C1 C2]. split; [apply (few_digits_eq _ _ _ (Qeq_sym _ _ Q2) C1)|]. intros y Hy. rewrite Q2. auto. }
  destruct (a <? 0) eqn:EN.
  - cbn [append]. exists (- q)%Q. split; [cbn [denotes]; now rewrite Q1|]. destruct CQ as [C1 C2]. split.
    + destruct C1 as (m' & k & H1 & H2). exists (- m'), k. split; [lia|]. rewrite H2, inject_Z_opp. ring.
    + intros y (m' & k & H1 & H2). assert (F : few_digits p (- y)). { exists (- m'), k. split; [lia|]. rewrite H2, inject_Z_opp. ring. }
      specialize (C2 _ F). assert (X : (a # b == - (inject_Z (Z.abs a) / inject_Z (Z.pos b)))%Q).
      { rewrite Qmake_Qdiv. replace a with (- Z.abs a) at 1 by lia. rewrite inject_Z_opp. field. discriminate. }
      rewrite X. setoid_replace (- (inject_Z (Z.abs a) / inject_Z (Z.pos b)) - - q)%Q with (- (inject_Z (Z.abs a) / inject_Z (Z.pos b) - q))%Q by ring.
      setoid_replace (- (inject_Z (Z.abs a) / inject_Z (Z.pos b)) - y)%Q with (- (inject_Z (Z.abs a) / inject_Z (Z.pos b) - - y))%Q by ring.
      rewrite !Qabs_opp. exact C2.
  - cbn [append]. exists q. split.
    + unfold denotes. destruct body as [|c t] eqn:EBd; [exact Q1|]. destruct (Ascii.eqb c "-") eqn:Ec.
      * apply Ascii.eqb_eq in Ec. subst c. cbn in Q1. discriminate.
      * assert (G : match String c t with String "-" t' => option_map Qopp (read_unsigned t') | _ => read_unsigned (String c t) end = read_unsigned (String c t)).
        { destruct c as [[] [] [] [] [] [] [] []]; try reflexivity. discriminate. }
        rewrite G. exact Q1.
    + assert (X : (a # b == inject_Z (Z.abs a) / inject_Z (Z.pos b))%Q) by (rewrite Qmake_Qdiv; replace (Z.abs a) with a by lia; reflexivity).
      destruct CQ as [C1 C2]. split; [exact C1|]. intros y Hy. rewrite X. auto.
Qed.

(* ---------- units ---------- *)

Lemma few_digits_scale p k q : few_digits p q -> few_digits p (q * ten k).
Proof. intros (m & j & H1 & H2). exists m, (j + k). split; [exact H1|]. rewrite H2, ten_plus. ring. Qed.

Lemma closest_scale p k x r : closest p x r -> closest p (x * ten k) (r * ten k).
Proof.
  intros [C1 C2]. split; [now apply few_digits_scale|]. intros y Hy. pose proof (C2 _ (few_digits_scale p (- k) y Hy)) as H.
  pose proof (ten_neg k) as N. pose proof (ten_pos k) as P.
  setoid_replace (x * ten k - r * ten k)%Q with (ten k * (x - r))%Q by ring.
  assert (x * ten k - y == ten k * (x - y * ten (- k)))%Q as ->.
  { transitivity (x * ten k - y * (ten k * ten (- k)))%Q; [rewrite N; ring|ring]. }
  rewrite !Qabs_scale by lra. nra.
Qed.

Lemma closest_eq p x x' r r' : (x == x')%Q -> (r == r')%Q -> closest p x r -> closest p x' r'.
Proof. intros E1 E2 [C1 C2]. split; [exact (few_digits_eq _ _ _ E2 C1)|]. intros y Hy. rewrite <- E1, <- E2. auto. Qed.

Lemma seconds_unit u : exists q, seconds (unit_name u) = Some q /\ (q == ten (- unit_exp u))%Q.
Proof. destruct u; (eexists; split; [vm_compute; reflexivity|]); reflexivity. Qed.

Lemma rescale_ten u dt : (rescale u dt == dt * ten (unit_exp u))%Q.
Proof.
  unfold rescale. destruct dt as [a b]. cbn [Qnum Qden]. rewrite ten_Z by (destruct u; cbn; lia).
  rewrite !Qmake_Qdiv, inject_Z_mult. field. discriminate.
Qed.

Lemma find_unit_iff s u : find_unit s = Ok u <-> s = unit_name u.
Proof.
  unfold find_unit. split.
  - cbn [filter]. intros H.
    destruct (String.eqb s (unit_name NS)) eqn:E1; [apply String.eqb_eq in E1; congruence|].
    destruct (String.eqb s (unit_name US)) eqn:E2; [apply String.eqb_eq in E2; congruence|].
    destruct (String.eqb s (unit_name MS)) eqn:E3; [apply String.eqb_eq in E3; congruence|].
    destruct (String.eqb s (unit_name SEC)) eqn:E4; [apply String.eqb_eq in E4; congruence|]. discriminate.
  - intros ->. destruct u; vm_compute; reflexivity.
Qed.

Lemma find_unit_err s e : find_unit s = Err e -> e = KeyError.
Proof. unfold find_unit. destruct (filter _ _); congruence. Qed.

Lemma format_time_value dt unit p s : format_time dt unit p = Ok s ->
  exists num name sec r, s = (num ++ name)%string /\ seconds name = Some sec /\ denotes num = Some r /\
    closest (Z.max 1 p) dt (r * sec) /\ (forall n, unit = Some n -> name = n).
Proof.
  unfold format_time. destruct unit as [n|].
  - destruct (find_unit n) as [u|] eqn:E; [|discriminate]. cbn [bind]. intros [= <-]. apply find_unit_iff in E as ->.
    destruct (format_g_denotes p (rescale u dt)) as (r & R1 & R2). destruct (seconds_unit u) as (q & Q1 & Q2).
    exists (format_g p (rescale u dt)), (unit_name u), q, r. split; [reflexivity|]. split; [exact Q1|]. split; [exact R1|]. split; [|congruence].
    apply (closest_scale _ (- unit_exp u)) in R2. eapply closest_eq; [| |exact R2]; [|now rewrite Q2].
    rewrite rescale_ten, <- Qmult_assoc, ten_neg. ring.
  - cbn [bind]. intros [= <-]. set (u := choose_unit [SEC; MS; US; NS] dt NS).
    destruct (format_g_denotes p (rescale u dt)) as (r & R1 & R2). destruct (seconds_unit u) as (q & Q1 & Q2).
    exists (format_g p (rescale u dt)), (unit_name u), q, r. split; [reflexivity|]. split; [exact Q1|]. split; [exact R1|]. split; [|congruence].
    apply (closest_scale _ (- unit_exp u)) in R2. eapply closest_eq; [| |exact R2]; [|now rewrite Q2].
    rewrite rescale_ten, <- Qmult_assoc, ten_neg. ring.
Qed.

(** The test of line 35. *)
Lemma reach_iff u dt : (Zpos (Qden dt) <=? Qnum dt * 10 ^ unit_exp u) = true <-> (ten (- unit_exp u) <= dt)%Q.
Proof.
  assert (E : (ten (- unit_exp u) <= dt)%Q <-> (1 <= dt * ten (unit_exp u))%Q).
  { pose proof (ten_neg (unit_exp u)) as N. pose proof (ten_pos (unit_exp u)). pose proof (ten_pos (- unit_exp u)). split; intros H1.
    - rewrite <- N. setoid_replace (ten (unit_exp u) * ten (- unit_exp u))%Q with (ten (- unit_exp u) * ten (unit_exp u))%Q by ring. nra.
    - assert (dt == (dt * ten (unit_exp u)) * ten (- unit_exp u))%Q as -> by (rewrite <- Qmult_assoc, N; ring). nra. }
  rewrite E, <- rescale_ten. unfold rescale, Qle. cbn [Qnum Qden]. lia.
Qed.

Lemma choose_unit_spec dt : let u := choose_unit [SEC; MS; US; NS] dt NS in
  (forall v, (ten (- unit_exp v) <= dt)%Q -> unit_exp u <= unit_exp v) /\
  ((ten (- unit_exp u) <= dt)%Q \/ u = NS).
Proof.
  cbn [choose_unit].
  destruct (_ <=? Qnum dt * 10 ^ unit_exp SEC) eqn:E1; [apply reach_iff in E1; split; [intros []; cbn; lia|auto]|].
  destruct (_ <=? Qnum dt * 10 ^ unit_exp MS) eqn:E2.
  { apply reach_iff in E2. split; [|auto]. intros [] H; cbn; try lia. apply reach_iff in H. congruence. }
  destruct (_ <=? Qnum dt * 10 ^ unit_exp US) eqn:E3.
  { apply reach_iff in E3. split; [|auto]. intros [] H; cbn; try lia; apply reach_iff in H; congruence. }
  assert (G : (if Z.pos (Qden dt) <=? Qnum dt * 10 ^ unit_exp NS then NS else NS) = NS) by (now destruct (Z.pos (Qden dt) <=? Qnum dt * 10 ^ unit_exp NS)).
  rewrite G. split; [|auto]. intros [] H; cbn; try lia; apply reach_iff in H; congruence.
Qed.

Lemma unit_names_inj u v : unit_name u = unit_name v -> u = v.
Proof. destruct u, v; intros H; try reflexivity; vm_compute in H; discriminate. Qed.

Lemma seconds_iff n q : seconds n = Some q <-> exists u, n = unit_name u /\ seconds (unit_name u) = Some q.
Proof.
  split.
  - intros H. pose proof H as H'. unfold seconds in H.
    destruct (String.eqb n "ns") eqn:E1; [apply String.eqb_eq in E1; subst n; exists NS; auto|].
    destruct (String.eqb n (String (ascii_of_nat 181) "s")) eqn:E2; [apply String.eqb_eq in E2; subst n; exists US; auto|].
    destruct (String.eqb n "ms") eqn:E3; [apply String.eqb_eq in E3; subst n; exists MS; auto|].
    destruct (String.eqb n "s") eqn:E4; [apply String.eqb_eq in E4; subst n; exists SEC; auto|]. discriminate.
  - intros (u & -> & H). exact H.
Qed.

Lemma format_time_auto dt p : exists num name sec, format_time dt None p = Ok (num ++ name)%string /\ seconds name = Some sec /\
  ((sec <= dt)%Q \/ name = "ns"%string) /\ (forall n q, seconds n = Some q -> (q <= dt)%Q -> (q <= sec)%Q).
Proof.
  destruct (choose_unit_spec dt) as [C1 C2]. unfold format_time. cbn [bind]. set (u := choose_unit [SEC; MS; US; NS] dt NS) in *.
  destruct (seconds_unit u) as (q & Q1 & Q2). exists (format_g p (rescale u dt)), (unit_name u), q. split; [reflexivity|]. split; [exact Q1|]. split.
  - destruct C2 as [C2| ->]; [left; now rewrite Q2|right; reflexivity].
  - intros n q' H Hle. apply seconds_iff in H as (v & -> & H). destruct (seconds_unit v) as (q2 & S1 & S2). assert (q2 = q') as -> by congruence.
    rewrite Q2, S2. apply ten_mono. rewrite S2 in Hle. specialize (C1 v Hle). lia.
Qed.

(* ---------- length ---------- *)

Lemma strip0_length s : (String.length (strip0 s) <= String.length s)%nat.
Proof. destruct (strip0_zeros s) as [z E]. rewrite E at 2. rewrite length_append. lia. Qed.

Lemma decimal_length w f m : (String.length (decimal w f m) <= w + f + (if Nat.eqb f 0 then 0 else 1))%nat.
Proof.
  unfold decimal. rewrite length_append, digits_length. set (s := digits f _). pose proof (strip0_length s) as H.
  assert (L : String.length s = f) by apply digits_length. destruct (strip0 s) as [|c t]; [cbn; lia|].
  cbn [String.length] in *. destruct (Nat.eqb f 0) eqn:E; [apply Nat.eqb_eq in E; lia|lia].
Qed.

(** The exponent of the rounded number: not less than zero for numbers from one on, less than p for numbers that stay below 10^p. *)
Lemma significand_range p a b m e : 1 <= p -> 0 < b -> b <= a -> 2 * a < b * (2 * 10 ^ p - 1) -> significand p a b = (m, e) -> 0 <= e < p.
Proof.
  intros Hp Hb Ha Hu E. destruct (significand_spec p a b m e Hp ltac:(lia) Hb E) as [[M1 M2] [_ C]].
  assert (HB : (0 < inject_Z b)%Q) by (change 0%Q with (inject_Z 0); rewrite <- Zlt_Qlt; lia).
  assert (X : 0 <= exponent10 a b) by (unfold exponent10; destruct (b <=? a) eqn:F; lia).
  assert (P10 : 0 < 10 ^ p) by (apply Z.pow_pos_nonneg; lia).
  destruct (exponent10_spec a b ltac:(lia) Hb) as [X1 X2].
  assert (L : exponent10 a b < p).
  { apply Z.nle_gt. intros G. assert (ten p * inject_Z b <= inject_Z a)%Q.
    { eapply Qle_trans; [|exact X1]. pose proof (ten_mono _ _ G). nra. }
    rewrite ten_Z in H by lia. rewrite <- inject_Z_mult, <- Zle_Qle in H. lia. }
  unfold significand in E. set (x := exponent10 a b) in *.
  destruct (nearest _ _ =? 10 ^ p) eqn:F; injection E as <- <-; [|lia]. split; [lia|].
  destruct (Z.eq_dec x (p - 1)) as [EX|]; [|lia]. exfalso.
  assert (p - 1 - x = 0) as S0 by lia. rewrite S0 in F. change (Z.max 0 0) with 0 in F. change (Z.max 0 (- 0)) with 0 in F.
  change (10 ^ 0) with 1 in F. rewrite !Z.mul_1_r in F. pose proof (nearest_half a b Hb) as N. assert (nearest a b = 10 ^ p) as NE by lia. rewrite NE in N. nia.
Qed.

Lemma format_g_length p x : 1 <= p -> (1 <= x)%Q -> (x < inject_Z (10 ^ p) - (1 # 2))%Q -> Z.of_nat (String.length (format_g p x)) <= p + 1.
Proof.
  intros Hp H1 H2. unfold format_g. replace (Z.max 1 p) with p by lia. destruct x as [a b]. unfold Qle, Qlt in H1, H2. cbn [Qnum Qden inject_Z Qminus Qplus Qopp] in *.
  destruct (a =? 0) eqn:E0; [cbn; lia|]. destruct (significand p (Z.abs a) (Z.pos b)) as [m e] eqn:ES.
  destruct (significand_range p (Z.abs a) (Z.pos b) m e Hp ltac:(lia) ltac:(lia) ltac:(lia) ES) as [R1 R2].
  destruct (a <? 0) eqn:EN; [lia|]. cbn [append]. destruct ((-4 <=? e) && (e <? p)) eqn:EB; [|lia].
  pose proof (decimal_length (Z.to_nat (Z.max 1 (e + 1))) (Z.to_nat (p - 1 - e)) m). destruct (Nat.eqb _ 0); lia.
Qed.

Lemma format_time_length dt p s : 4 <= p -> ((1 # 1000000000) <= dt)%Q -> (dt < inject_Z (10 ^ p) - (1 # 2))%Q ->
  format_time dt None p = Ok s -> Z.of_nat (String.length s) <= p + 3.
Proof.
  intros Hp H1 H2. destruct (choose_unit_spec dt) as [C1 C2]. unfold format_time. cbn [bind]. set (u := choose_unit [SEC; MS; US; NS] dt NS) in *. intros [= <-].
  rewrite length_append. assert (U : (String.length (unit_name u) <= 2)%nat) by (destruct u; cbn; lia).
  assert (G1 : (1 <= rescale u dt)%Q).
  { rewrite rescale_ten. destruct C2 as [C2|C2].
    - pose proof (ten_neg (unit_exp u)). pose proof (ten_pos (unit_exp u)). nra.
    - rewrite C2. change (ten (unit_exp NS)) with (1000000000 # 1). lra. }
  assert (G2 : (rescale u dt < inject_Z (10 ^ p) - (1 # 2))%Q).
  { assert (K : (inject_Z 10000 <= inject_Z (10 ^ p))%Q).
    { rewrite <- Zle_Qle. change 10000 with (10 ^ 4). apply Z.pow_le_mono_r; lia. }
    change (inject_Z 10000) with (10000 # 1) in K. rewrite rescale_ten.
    assert (N : forall v, unit_exp v < unit_exp u -> (dt < ten (- unit_exp v))%Q).
    { intros v Hv. apply Qnot_le_lt. intros L. specialize (C1 v L). lia. }
    destruct u eqn:EU.
    - specialize (N US eq_refl). change (ten (- unit_exp US)) with (1 # 1000000) in N. change (ten (unit_exp NS)) with (1000000000 # 1). lra.
    - specialize (N MS eq_refl). change (ten (- unit_exp MS)) with (1 # 1000) in N. change (ten (unit_exp US)) with (1000000 # 1). lra.
    - specialize (N SEC eq_refl). change (ten (- unit_exp SEC)) with (1 # 1) in N. change (ten (unit_exp MS)) with (1000 # 1). lra.
    - change (ten (unit_exp SEC)) with 1%Q. lra. }
  pose proof (format_g_length p _ ltac:(lia) G1 G2). lia.
Qed.

(* ---------- timeit ---------- *)

Lemma choose_number_ok inner taken number : (0 <= inner)%Q -> (0 < taken)%Q -> 0 < number ->
  exists k, choose_number inner taken number = Ok (k * number) /\ 1 <= k /\
    (inner < inject_Z k * taken)%Q /\ (inject_Z (k - 1) * taken <= inner)%Q.
Proof.
  intros Hi Ht Hn. unfold choose_number. destruct (Qnum taken =? 0) eqn:E; [unfold Qlt in Ht; cbn in Ht; lia|].
  exists (Qfloor (inner / taken) + 1). split; [reflexivity|].
  pose proof (Qfloor_le (inner / taken)) as F1. pose proof (Qlt_floor (inner / taken)) as F2.
  assert (Q0 : (0 <= inner / taken)%Q) by (apply Qle_shift_div_l; lra).
  assert (D : (inner == (inner / taken) * taken)%Q) by (field; lra).
  split; [|split].
  - pose proof (Qfloor_resp_le _ _ Q0) as G. change (Qfloor 0) with 0 in G. lia.
  - rewrite D at 1. nra.
  - replace (Qfloor (inner / taken) + 1 - 1) with (Qfloor (inner / taken)) by lia. rewrite D at 2. nra.
Qed.

Lemma qmin_le a b : (qmin a b <= a)%Q /\ (qmin a b <= b)%Q /\ (qmin a b = a \/ qmin a b = b).
Proof. unfold qmin. destruct (Qle_bool a b) eqn:E; [apply Qle_bool_iff in E; repeat split; auto; lra|]. assert (~ (a <= b)%Q) by (intros H; apply Qle_bool_iff in H; congruence). repeat split; auto; lra. Qed.
Lemma qmax_ge a b : (a <= qmax a b)%Q /\ (b <= qmax a b)%Q /\ (qmax a b = a \/ qmax a b = b).
Proof. unfold qmax. destruct (Qle_bool a b) eqn:E; [apply Qle_bool_iff in E; repeat split; auto; lra|]. assert (~ (a <= b)%Q) by (intros H; apply Qle_bool_iff in H; congruence). repeat split; auto; lra. Qed.

Lemma fold_qmin l : forall a, (forall b, In b (a :: l) -> (fold_left qmin l a <= b)%Q) /\ In (fold_left qmin l a) (a :: l).
Proof.
  induction l as [|c l IH]; intros a; cbn [fold_left].
  - split; [intros b [->|[]]; lra|now left].
  - destruct (IH (qmin a c)) as [I1 I2]. destruct (qmin_le a c) as (M1 & M2 & M3). pose proof (I1 _ (or_introl eq_refl)) as I0. split.
    + intros b [->|[->|H]]; [lra|lra|]. apply I1. now right.
    + destruct I2 as [I2|I2]; [|now right; right]. rewrite <- I2. destruct M3 as [-> | ->]; [now left|now right; left].
Qed.
Lemma fold_qmax l : forall a, (forall b, In b (a :: l) -> (b <= fold_left qmax l a)%Q) /\ In (fold_left qmax l a) (a :: l).
Proof.
  induction l as [|c l IH]; intros a; cbn [fold_left].
  - split; [intros b [->|[]]; lra|now left].
  - destruct (IH (qmax a c)) as [I1 I2]. destruct (qmax_ge a c) as (M1 & M2 & M3). pose proof (I1 _ (or_introl eq_refl)) as I0. split.
    + intros b [->|[->|H]]; [lra|lra|]. apply I1. now right.
    + destruct I2 as [I2|I2]; [|now right; right]. rewrite <- I2. destruct M3 as [-> | ->]; [now left|now right; left].
Qed.

Lemma insert_perm a l : Permutation (a :: l) (insert a l).
Proof.
  induction l as [|b l IH]; [reflexivity|]. cbn [insert]. destruct (Qle_bool a b); [reflexivity|].
  eapply perm_trans; [apply perm_swap|]. now constructor.
Qed.
Lemma sorted_perm l : Permutation l (sorted_of l).
Proof. induction l as [|a l IH]; [constructor|]. cbn [sorted_of]. eapply perm_trans; [constructor; exact IH|apply insert_perm]. Qed.

Fixpoint asc (l : list Q) : Prop := match l with [] => True | a :: t => (forall b, In b t -> (a <= b)%Q) /\ asc t end.

Lemma insert_asc a l : asc l -> asc (insert a l).
Proof.
  induction l as [|b l IH]; cbn [insert asc]; [intros _; split; [intros ? []|exact I]|]. intros [H1 H2]. destruct (Qle_bool a b) eqn:E.
  - apply Qle_bool_iff in E. cbn [asc]. split; [|split; assumption]. intros c [<-|H]; [exact E|]. specialize (H1 c H). lra.
  - assert (L : (b <= a)%Q). { apply Qlt_le_weak, Qnot_le_lt. intros G. apply Qle_bool_iff in G. congruence. }
    cbn [asc]. split; [|apply IH; exact H2]. intros c H. apply (Permutation_in c (Permutation_sym (insert_perm a l))) in H as [<-|H]; auto.
Qed.
Lemma sorted_asc l : asc (sorted_of l).
Proof. induction l as [|a l IH]; [exact I|]. cbn [sorted_of]. now apply insert_asc. Qed.

Lemma asc_nth l : asc l -> forall i j, (i <= j < length l)%nat -> (nth i l 0 <= nth j l 0)%Q.
Proof.
  induction l as [|a l IH]; intros H i j Hij; [cbn in Hij; lia|]. destruct H as [H1 H2]. destruct i as [|i], j as [|j]; cbn [nth length] in *; try lia.
  - lra.
  - apply H1, nth_In. lia.
  - apply IH; [exact H2|lia].
Qed.

Lemma filter_perm P (l l' : list Q) : Permutation l l' -> length (filter P l) = length (filter P l').
Proof. induction 1 as [|a l l' H IH|a b l|]; cbn [filter]; [reflexivity| | |congruence]; [destruct (P a)|destruct (P a), (P b)]; cbn [length]; congruence. Qed.

Lemma filter_all P (l : list Q) : (forall b, In b l -> P b = true) -> filter P l = l.
Proof. induction l as [|a l IH]; intros H; [reflexivity|]. cbn [filter]. rewrite (H a (or_introl eq_refl)). f_equal. apply IH. intros b Hb. apply H. now right. Qed.

Lemma filter_firstn P (l : list Q) k : (k <= length l)%nat -> (forall i, (i < k)%nat -> P (nth i l 0%Q) = true) -> (k <= length (filter P l))%nat.
Proof.
  intros Hk H. rewrite <- (firstn_skipn k l), filter_app, app_length, filter_all.
  - rewrite firstn_length. lia.
  - intros b Hb. apply (In_nth _ _ 0%Q) in Hb as (i & Hi & <-). rewrite firstn_length in Hi. rewrite <- (H i ltac:(lia)). f_equal.
    rewrite <- (firstn_skipn k l) at 2. rewrite app_nth1; [reflexivity|rewrite firstn_length; lia].
Qed.
Lemma filter_skipn P (l : list Q) k : (k <= length l)%nat -> (forall i, (k <= i < length l)%nat -> P (nth i l 0%Q) = true) -> (length l - k <= length (filter P l))%nat.
Proof.
  intros Hk H. rewrite <- (firstn_skipn k l) at 2. rewrite filter_app, app_length, (filter_all P (skipn k l)).
  - rewrite skipn_length. lia.
  - intros b Hb. apply (In_nth _ _ 0%Q) in Hb as (i & Hi & <-). rewrite skipn_length in Hi. rewrite <- (H (k + i)%nat ltac:(lia)). f_equal.
    rewrite <- (firstn_skipn k l) at 2. rewrite app_nth2; [|rewrite firstn_length; lia]. f_equal. rewrite firstn_length. lia.
Qed.

Lemma median_half l : l <> [] -> at_least_half (fun a => Qle_bool a (median l)) l /\ at_least_half (fun a => Qle_bool (median l) a) l.
Proof.
  intros Hne. unfold at_least_half. pose proof (sorted_perm l) as P. pose proof (sorted_asc l) as A. rewrite !(filter_perm _ _ _ P).
  unfold median. set (s := sorted_of l) in *. rewrite (Permutation_length P). assert (L : (0 < length s)%nat) by (rewrite <- (Permutation_length P); destruct l; [congruence|cbn; lia]).
  set (n := length s) in *. pose proof (Nat.div2_odd n) as D. rewrite <- Nat.negb_even in D. set (h := Nat.div2 n) in *. destruct (Nat.even n) eqn:E; cbn in D.
  - set (med := ((nth (Nat.pred h) s 0 + nth h s 0) / inject_Z 2)%Q).
    assert (M : (nth (Nat.pred h) s 0 <= nth h s 0)%Q) by (apply asc_nth; [exact A|fold n; lia]).
    assert (M1 : (nth (Nat.pred h) s 0 <= med)%Q). { unfold med. apply Qle_shift_div_l; [reflexivity|]. change (inject_Z 2) with (2 # 1). lra. }
    assert (M2 : (med <= nth h s 0)%Q). { unfold med. apply Qle_shift_div_r; [reflexivity|]. change (inject_Z 2) with (2 # 1). lra. }
    split.
    + assert (h <= length (filter (fun a => Qle_bool a med) s))%nat; [|lia]. apply filter_firstn; [fold n; lia|]. intros i Hi. apply Qle_bool_iff.
      eapply Qle_trans; [apply (asc_nth s A i (Nat.pred h)); fold n; lia|exact M1].
    + assert (n - h <= length (filter (fun a => Qle_bool med a) s))%nat; [|lia]. apply filter_skipn; [fold n; lia|]. intros i Hi. apply Qle_bool_iff.
      eapply Qle_trans; [exact M2|]. apply asc_nth; [exact A|fold n; lia].
  - split.
    + assert (S h <= length (filter (fun a => Qle_bool a (nth h s 0%Q)) s))%nat; [|lia]. apply filter_firstn; [fold n; lia|]. intros i Hi. apply Qle_bool_iff.
      apply asc_nth; [exact A|fold n; lia].
    + assert (n - h <= length (filter (fun a => Qle_bool (nth h s 0%Q) a) s))%nat; [|lia]. apply filter_skipn; [fold n; lia|]. intros i Hi. apply Qle_bool_iff.
      apply asc_nth; [exact A|fold n; lia].
Qed.

Lemma half_between l P : l <> [] -> at_least_half P l -> exists b, In b l /\ P b = true.
Proof.
  intros Hne H. unfold at_least_half in H. destruct (filter P l) as [|b t] eqn:E; [destruct l; [congruence|cbn in H; lia]|].
  exists b. apply filter_In. rewrite E. now left.
Qed.

Lemma mean_sum l : l <> [] -> (mean l * inject_Z (Z.of_nat (length l)) == qsum l)%Q.
Proof.
  intros H. unfold mean. field. intros E. unfold Qeq, inject_Z in E. cbn in E. destruct l; [congruence|cbn in E; lia].
Qed.

Lemma qsum_bounds l lo hi : (forall b, In b l -> (lo <= b)%Q /\ (b <= hi)%Q) ->
  (lo * inject_Z (Z.of_nat (length l)) <= qsum l)%Q /\ (qsum l <= hi * inject_Z (Z.of_nat (length l)))%Q.
Proof.
  induction l as [|a l IH]; intros H; [unfold qsum; cbn [fold_right length]; change (inject_Z (Z.of_nat 0)) with 0%Q; split; lra|]. destruct (H a (or_introl eq_refl)). destruct IH as [I1 I2]; [intros b Hb; apply H; now right|].
  cbn [qsum fold_right length]. fold (qsum l). rewrite Nat2Z.inj_succ. unfold Z.succ. rewrite inject_Z_plus. change (inject_Z 1) with 1%Q. split; lra.
Qed.

Lemma mean_bounds l lo hi : l <> [] -> (forall b, In b l -> (lo <= b)%Q /\ (b <= hi)%Q) -> (lo <= mean l)%Q /\ (mean l <= hi)%Q.
Proof.
  intros Hne H. destruct (qsum_bounds l lo hi H) as [B1 B2]. pose proof (mean_sum l Hne) as M.
  assert (N : (0 < inject_Z (Z.of_nat (length l)))%Q) by (change 0%Q with (inject_Z 0); rewrite <- Zlt_Qlt; destruct l; [congruence|cbn; lia]).
  rewrite <- M in B1, B2. split; [apply Qmult_le_r in B1|apply Qmult_le_r in B2]; auto.
Qed.

Lemma qsum_nonneg_zero l : (forall b, In b l -> (0 <= b)%Q) -> (0 <= qsum l)%Q /\ ((qsum l == 0)%Q -> forall b, In b l -> (b == 0)%Q).
Proof.
  induction l as [|a l IH]; intros H; [split; [cbn; lra|intros _ ? []]|]. destruct IH as [I1 I2]; [intros b Hb; apply H; now right|].
  pose proof (H a (or_introl eq_refl)). cbn [qsum fold_right]. fold (qsum l). split; [lra|]. intros E b [<-|Hb]; [lra|]. apply I2; [lra|exact Hb].
Qed.

Lemma variance_spec l : l <> [] -> (0 <= variance l)%Q /\ ((variance l == 0)%Q <-> forall a b, In a l -> In b l -> (a == b)%Q).
Proof.
  intros Hne. unfold variance. set (d := fun a => ((a - mean l) * (a - mean l))%Q). assert (Hm : map d l <> []) by (destruct l; [congruence|discriminate]).
  assert (D0 : forall b, In b (map d l) -> (0 <= b)%Q). { intros b Hb. apply in_map_iff in Hb as (a & <- & _). unfold d. generalize (a - mean l)%Q. intros q. unfold Qle, Qmult. cbn. nia. }
  destruct (qsum_nonneg_zero _ D0) as [S1 S2]. pose proof (mean_sum _ Hm) as M.
  assert (N : (0 < inject_Z (Z.of_nat (length (map d l))))%Q) by (change 0%Q with (inject_Z 0); rewrite <- Zlt_Qlt; destruct (map d l); [congruence|cbn; lia]).
  split; [apply (Qmult_le_r _ _ _ N); lra|]. split.
  - intros E a b Ha Hb. rewrite E in M. assert (Z0 : (qsum (map d l) == 0)%Q) by lra. specialize (S2 Z0).
    assert (G : forall c, In c l -> (c == mean l)%Q).
    { intros c Hc. pose proof (S2 _ (in_map d _ _ Hc)) as G. unfold d in G. apply Qmult_integral in G as [G|G]; lra. }
    rewrite (G a Ha), (G b Hb). reflexivity.
  - intros E. destruct l as [|a l]; [congruence|].
    assert (B : forall b, In b (a :: l) -> (a <= b)%Q /\ (b <= a)%Q). { intros b Hb. rewrite (E a b (or_introl eq_refl) Hb). split; lra. }
    destruct (mean_bounds (a :: l) a a Hne B) as [B1 B2].
    assert (B' : forall b, In b (map d (a :: l)) -> (0 <= b)%Q /\ (b <= 0)%Q).
    { intros b Hb. apply in_map_iff in Hb as (c & <- & Hc). destruct (B c Hc). assert (c - mean (a :: l) == 0)%Q as Z0 by lra. unfold d. rewrite Z0. split; lra. }
    destruct (mean_bounds _ 0 0 Hm B'). lra.
Qed.

Lemma summarise_ok times number r w : summarise times number = Ok (r, w) ->
  let l := map (fun t => (t / inject_Z number)%Q) times in
  among (t_min r) l /\ among (t_max r) l /\ (forall a, In a l -> (t_min r <= a)%Q /\ (a <= t_max r)%Q) /\
  (t_mean r * inject_Z (Z.of_nat (length times)) == fold_right Qplus 0 l)%Q /\
  at_least_half (fun a => Qle_bool a (t_median r)) l /\ at_least_half (fun a => Qle_bool (t_median r) a) l /\
  (t_min r <= t_median r)%Q /\ (t_median r <= t_max r)%Q /\ (t_min r <= t_mean r)%Q /\ (t_mean r <= t_max r)%Q /\
  (t_var r * inject_Z (Z.of_nat (length times)) == fold_right Qplus 0 (map (fun a => (a - t_mean r) * (a - t_mean r)) l))%Q /\
  (0 <= t_var r)%Q /\ ((t_var r == 0)%Q <-> forall a b, In a l -> In b l -> (a == b)%Q) /\
  (w = true <-> (inject_Z 4 * t_min r <= t_max r)%Q) /\ t_number r = number /\ t_repeats r = Z.of_nat (length times).
Proof.
  unfold summarise. cbn zeta. set (l := map _ times). destruct l as [|a t] eqn:EL; [discriminate|]. intros E. injection E as <- <-.
  assert (Hne : a :: t <> []) by discriminate. cbn [t_min t_max t_mean t_median t_var t_number t_repeats].
  destruct (fold_qmin t a) as [N1 N2]. destruct (fold_qmax t a) as [X1 X2]. destruct (median_half _ Hne) as [H1 H2].
  assert (B : forall b, In b (a :: t) -> (fold_left qmin t a <= b)%Q /\ (b <= fold_left qmax t a)%Q) by (intros b Hb; split; auto).
  destruct (mean_bounds _ _ _ Hne B) as [B1 B2].
  split; [eexists; split; [exact N2|reflexivity]|]. split; [eexists; split; [exact X2|reflexivity]|]. split; [exact B|].
  split. { replace (length times) with (length (a :: t)) by (rewrite <- EL; unfold l; apply map_length). exact (mean_sum _ Hne). }
  split; [exact H1|]. split; [exact H2|].
  destruct (half_between _ _ Hne H1) as (b1 & I1 & L1). destruct (half_between _ _ Hne H2) as (b2 & I2 & L2). apply Qle_bool_iff in L1, L2.
  split; [destruct (B _ I1); lra|]. split; [destruct (B _ I2); lra|]. split; [exact B1|]. split; [exact B2|].
  destruct (variance_spec _ Hne) as [V1 V2].
  split. { replace (length times) with (length (map (fun b => ((b - mean (a :: t)) * (b - mean (a :: t)))%Q) (a :: t))) by (rewrite map_length, <- EL; unfold l; apply map_length). apply mean_sum. discriminate. }
  split; [exact V1|]. split; [exact V2|]. split; [|split; reflexivity].
  rewrite Qle_bool_iff. rewrite Qmult_comm. reflexivity.
Qed.

Lemma summarise_empty times number : summarise times number = Err ValueError <-> times = [].
Proof. unfold summarise. destruct times as [|a t]; cbn [map]; split; intros; congruence. Qed.

(* ---------- a text says one thing only ---------- *)

(** c is none of the characters of a number *)
Definition foreign (c : ascii) : Prop := digit_of c = None /\ c <> "."%char /\ c <> "e"%char /\ c <> "-"%char.

Lemma app_last_cases a c d t : (a ++ String c EmptyString)%string = String d t ->
  (a = EmptyString /\ d = c /\ t = EmptyString) \/ exists a', a = String d a' /\ t = (a' ++ String c EmptyString)%string.
Proof. destruct a as [|x a]; cbn [append]; intros [= <- <-]; [left; auto|right; eauto]. Qed.

Lemma app_last_nonempty a c : (a ++ String c EmptyString)%string <> EmptyString.
Proof. destruct a; discriminate. Qed.

Lemma read_foreign c a : digit_of c = None -> forall v n, exists v' n' a', read (a ++ String c EmptyString)%string v n = (v', n', (a' ++ String c EmptyString)%string).
Proof.
  intros Hc. induction a as [|x a IH]; intros v n; cbn [append read].
  - rewrite Hc. exists v, n, EmptyString. reflexivity.
  - destruct (digit_of x) eqn:E; [apply IH|]. exists v, n, (String x a). reflexivity.
Qed.

Lemma exponent_foreign c a : foreign c -> read_exponent (a ++ String c EmptyString)%string = None.
Proof.
  intros (F1 & F2 & F3 & F4). destruct (a ++ String c EmptyString)%string as [|d t] eqn:E; [now apply app_last_nonempty in E|].
  assert (G : forall d t, d <> "e"%char -> read_exponent (String d t) = None).
  { intros x y H. unfold read_exponent. destruct x as [[] [] [] [] [] [] [] []]; try reflexivity; congruence. }
  destruct (Ascii.eqb d "e") eqn:Ed; [|apply G; intros ->; discriminate]. apply Ascii.eqb_eq in Ed. subst d.
  apply app_last_cases in E as [(-> & E & _)|(a' & -> & ->)]; [congruence|].
  destruct (a' ++ String c EmptyString)%string as [|g t] eqn:E; [reflexivity|].
  apply app_last_cases in E as [(-> & -> & ->)|(a2 & -> & ->)]; [reflexivity|]. cbn [read_exponent].
  destruct (read_foreign c a2 F1 0 0) as (v & n & a3 & ->). destruct (a3 ++ String c EmptyString)%string eqn:E; [now apply app_last_nonempty in E|reflexivity].
Qed.

Lemma unsigned_foreign c a : foreign c -> read_unsigned (a ++ String c EmptyString)%string = None.
Proof.
  intros F. pose proof F as (F1 & F2 & F3 & F4). unfold read_unsigned. destruct (read_foreign c a F1 0 0) as (v & n & a' & ->). destruct (n =? 0); [reflexivity|].
  destruct (a' ++ String c EmptyString)%string as [|d t] eqn:E; [now apply app_last_nonempty in E|].
  destruct (Ascii.eqb d ".") eqn:Ed.
  - apply Ascii.eqb_eq in Ed. subst d. apply app_last_cases in E as [(-> & E & _)|(a2 & -> & ->)]; [congruence|].
    destruct (read_foreign c a2 F1 v 0) as (v' & n' & a3 & ->). now rewrite exponent_foreign.
  - assert (G : (match String d t with String "." t' => read t' v 0 | _ => (v, 0, String d t) end) = (v, 0, String d t)).
    { destruct d as [[] [] [] [] [] [] [] []]; try reflexivity; discriminate. }
    rewrite G, <- E. now rewrite exponent_foreign.
Qed.

Lemma denotes_foreign c a : foreign c -> denotes (a ++ String c EmptyString)%string = None.
Proof.
  intros F. pose proof F as (F1 & F2 & F3 & F4). destruct (a ++ String c EmptyString)%string as [|d t] eqn:E; [now apply app_last_nonempty in E|].
  destruct (Ascii.eqb d "-") eqn:Ed.
  - apply Ascii.eqb_eq in Ed. subst d. apply app_last_cases in E as [(-> & E & _)|(a2 & -> & ->)]; [congruence|].
    cbn [denotes]. now rewrite unsigned_foreign.
  - assert (G : denotes (String d t) = read_unsigned (String d t)).
    { unfold denotes. destruct d as [[] [] [] [] [] [] [] []]; try reflexivity; discriminate. }
    rewrite G, <- E. now apply unsigned_foreign.
Qed.

Lemma app_s_inj a b : (a ++ "s" = b ++ "s")%string -> a = b.
Proof.
  revert b. induction a as [|x a IH]; intros [|y b] H; cbn [append] in H; [reflexivity| | |].
  - injection H as _ H. symmetry in H. now apply app_last_nonempty in H.
  - injection H as _ H. now apply app_last_nonempty in H.
  - injection H as -> H. f_equal. auto.
Qed.

Lemma app_last_inj a b c d : (a ++ String c EmptyString = b ++ String d EmptyString)%string -> a = b /\ c = d.
Proof.
  revert b. induction a as [|x a IH]; intros [|y b] H; cbn [append] in H.
  - injection H as ->. auto.
  - injection H as _ H. symmetry in H. now apply app_last_nonempty in H.
  - injection H as _ H. now apply app_last_nonempty in H.
  - injection H as -> H. apply IH in H as [-> ->]. auto.
Qed.

Lemma unit_split u : exists pre, unit_name u = (pre ++ "s")%string /\ (pre = EmptyString \/ exists c, pre = String c EmptyString /\ foreign c).
Proof.
  destruct u.
  - exists "n"%string. split; [reflexivity|]. right. eexists. split; [reflexivity|]. unfold foreign. split; [reflexivity|]. split; [discriminate|]. split; discriminate.
  - exists (String (ascii_of_nat 181) EmptyString). split; [reflexivity|]. right. eexists. split; [reflexivity|]. unfold foreign. split; [reflexivity|]. split; [discriminate|]. split; discriminate.
  - exists "m"%string. split; [reflexivity|]. right. eexists. split; [reflexivity|]. unfold foreign. split; [reflexivity|]. split; [discriminate|]. split; discriminate.
  - exists EmptyString. split; [reflexivity|]. now left.
Qed.

Lemma shows_unique s q q' : shows s q -> shows s q' -> (q == q')%Q.
Proof.
  intros (n1 & m1 & s1 & r1 & E1 & S1 & D1 & Q1) (n2 & m2 & s2 & r2 & E2 & S2 & D2 & Q2). subst s.
  pose proof S1 as S1'. pose proof S2 as S2'. apply seconds_iff in S1' as (u1 & -> & _). apply seconds_iff in S2' as (u2 & -> & _).
  assert (G : n1 = n2 /\ unit_name u1 = unit_name u2); [|destruct G as [-> G]; rewrite G in S1; rewrite Q1, Q2; assert (r1 = r2) as -> by congruence; assert (s1 = s2) as -> by congruence; reflexivity].
  destruct (unit_split u1) as (p1 & U1 & P1). destruct (unit_split u2) as (p2 & U2 & P2). rewrite U1, U2 in *.
  rewrite <- !append_assoc' in E2. apply app_s_inj in E2.
  destruct P1 as [->|(c1 & -> & F1)], P2 as [->|(c2 & -> & F2)]; rewrite ?append_nil' in E2.
  - auto.
  - subst n1. rewrite denotes_foreign in D1 by exact F2. discriminate.
  - subst n2. rewrite denotes_foreign in D2 by exact F1. discriminate.
  - apply app_last_inj in E2 as [-> ->]. auto.
Qed.

Lemma format_time_shows dt unit p s q : format_time dt unit p = Ok s -> shows s q -> closest (Z.max 1 p) dt q.
Proof.
  intros H Hs. destruct (format_time_value dt unit p s H) as (num & name & sec & r & E & S & D & C & _).
  assert (S' : shows s (r * sec)). { exists num, name, sec, r. split; [exact E|]. split; [exact S|]. split; [exact D|reflexivity]. }
  eapply closest_eq; [reflexivity| |exact C]. exact (shows_unique _ _ _ S' Hs).
Qed.

(** Proofs about division in floating point: exact up to rounding for operands up to 2^p. *)

From Coq Require Import String List ZArith Bool Lia.
From Coq Require Import ZifyBool.
From Verif Require Import Py Meta MetaSpec MetaProofs F32.
Import ListNotations.
Open Scope Z_scope.

Lemma nearest_half a b : 0 < b -> 2 * Z.abs (nearest a b * b - a) <= b.
Proof.
  intros Hb. unfold nearest. pose proof (Z.div_mod a b ltac:(lia)) as E. pose proof (Z.mod_pos_bound a b Hb) as R.
  destruct (2 * (a mod b) <? b) eqn:H1; [nia|]. destruct (b <? 2 * (a mod b)) eqn:H2; [nia|].
  destruct (Z.even (a / b)); nia.
Qed.
Lemma nearest_exact q b : 0 < b -> nearest (q * b) b = q.
Proof.
  intros Hb. unfold nearest. rewrite Z.mod_mul, Z.div_mul by lia. destruct (2 * 0 <? b) eqn:H; [reflexivity|lia].
Qed.

Lemma pow_split a b : 0 <= a -> 0 <= b -> 2 ^ (a + b) = 2 ^ a * 2 ^ b.
Proof. intros. apply Z.pow_add_r; lia. Qed.
Lemma pow_pos a : 0 <= a -> 0 < 2 ^ a.
Proof. intros. apply Z.pow_pos_nonneg; lia. Qed.

(** 2^e <= a / b < 2^(e + 1). *)
Lemma exponent_spec a b : 0 < a -> 0 < b ->
  (0 <= exponent a b -> b * 2 ^ exponent a b <= a < b * 2 ^ exponent a b * 2) /\
  (exponent a b < 0 -> b <= a * 2 ^ (- exponent a b) < 2 * b).
Proof.
  intros Ha Hb. unfold exponent.
  pose proof (Z.log2_spec a Ha) as [A1 A2]. pose proof (Z.log2_spec b Hb) as [B1 B2].
  pose proof (Z.log2_nonneg a) as La. pose proof (Z.log2_nonneg b) as Lb.
  set (la := Z.log2 a) in *. set (lb := Z.log2 b) in *. rewrite Z.pow_succ_r in A2, B2 by lia.
  destruct (0 <=? la - lb) eqn:El.
  - assert (E : 2 ^ la = 2 ^ lb * 2 ^ (la - lb)) by (rewrite <- pow_split by lia; f_equal; lia).
    pose proof (pow_pos lb ltac:(lia)). pose proof (pow_pos (la - lb) ltac:(lia)).
    set (u := 2 ^ (la - lb)) in *.
    destruct (b * u <=? a) eqn:Ec.
    + split; intros; [|lia]. change (2 ^ (la - lb)) with u. nia.
    + split; intros H3.
      * assert (Eu : u = 2 ^ (la - lb - 1) * 2). { unfold u. replace (la - lb) with (Z.succ (la - lb - 1)) at 1 by lia. rewrite Z.pow_succ_r by lia. lia. }
        pose proof (pow_pos (la - lb - 1) ltac:(lia)). set (w := 2 ^ (la - lb - 1)) in *. nia.
      * assert (la - lb = 0) by lia. assert (u = 1) by (unfold u; now replace (la - lb) with 0 by lia).
        replace (- (la - lb - 1)) with 1 by lia. change (2 ^ 1) with 2. nia.
  - assert (E : 2 ^ lb = 2 ^ la * 2 ^ (- (la - lb))) by (rewrite <- pow_split by lia; f_equal; lia).
    pose proof (pow_pos la ltac:(lia)). pose proof (pow_pos (- (la - lb)) ltac:(lia)).
    set (u := 2 ^ (- (la - lb))) in *.
    destruct (b <=? a * u) eqn:Ec.
    + split; intros; [lia|]. change (2 ^ (- (la - lb))) with u. nia.
    + split; intros; [lia|]. assert (Eu : 2 ^ (- (la - lb - 1)) = 2 * u). { replace (- (la - lb - 1)) with (Z.succ (- (la - lb))) by lia. rewrite Z.pow_succ_r by lia. reflexivity. }
      rewrite Eu. nia.
Qed.

Section Prec.
Context (p : Z) (Hp : 1 <= p).

(** Rounding of x / k in any representation, for operands up to 2^p: off by less than 1 / k, exact for integers. *)
Lemma round_pos_spec x k g N D : 0 < x <= 2 ^ p -> 0 < k <= 2 ^ p -> 0 < g ->
  round_pos p (x * g) (k * g) = (N, D) -> 0 < D /\ Z.abs (N * k - x * D) < D /\ (forall q, x = q * k -> N = q * D).
Proof.
  intros Hx Hk Hg. unfold round_pos.
  pose proof (exponent_spec (x * g) (k * g) ltac:(nia) ltac:(nia)) as [E1 E2].
  set (e := exponent (x * g) (k * g)) in *.
  destruct (0 <=? e - (p - 1)) eqn:Es.
  - intros [= <- <-]. specialize (E1 ltac:(lia)). set (s := e - (p - 1)) in *.
    assert (Ee : 2 ^ e = 2 ^ s * 2 ^ (p - 1)) by (rewrite <- pow_split by lia; f_equal; lia).
    assert (Epp : 2 ^ p = 2 * 2 ^ (p - 1)) by (rewrite <- (Z.pow_succ_r 2 (p - 1)) by lia; f_equal; lia).
    pose proof (pow_pos s ltac:(lia)) as Ps. pose proof (pow_pos (p - 1) ltac:(lia)) as Pp.
    assert (K2 : k * 2 ^ s <= 2).
    { assert (k * 2 ^ e <= x) by nia. assert (k * 2 ^ s * 2 ^ (p - 1) <= 2 * 2 ^ (p - 1)) by (rewrite Ee in H; lia). nia. }
    assert (DV : exists u, x = u * (k * 2 ^ s)).
    { assert (k * 2 ^ s = 1 \/ k * 2 ^ s = 2) as [E|E] by nia.
      - exists x. rewrite E. lia.
      - exists (2 ^ (p - 1)). rewrite E. assert (k * 2 ^ e <= x) by nia. rewrite Ee in H. nia. }
    destruct DV as [u Eu].
    assert (EN : nearest (x * g) (k * g * 2 ^ s) = u).
    { replace (x * g) with (u * (k * g * 2 ^ s)) by (rewrite Eu; ring). apply nearest_exact. nia. }
    rewrite EN. split; [lia|]. split; [rewrite Eu; nia|]. intros q Eq. nia.
  - intros [= <- <-]. set (s := e - (p - 1)) in *. pose proof (pow_pos (- s) ltac:(lia)) as Ps. split; [exact Ps|].
    assert (EX : forall q, x * 2 ^ (- s) = q * k -> nearest (x * g * 2 ^ (- s)) (k * g) = q).
    { intros q Eq. replace (x * g * 2 ^ (- s)) with (q * (k * g)) by nia. apply nearest_exact. nia. }
    split.
    + destruct (Z.lt_ge_cases k (2 * 2 ^ (- s))) as [Hl|Hl].
      * pose proof (nearest_half (x * g * 2 ^ (- s)) (k * g) ltac:(nia)) as NH.
        set (n := nearest _ _) in *. replace (n * (k * g) - x * g * 2 ^ (- s)) with ((n * k - x * 2 ^ (- s)) * g) in NH by ring.
        rewrite Z.abs_mul, (Z.abs_eq g) in NH by lia. nia.
      * assert (H2 : 2 * 2 ^ (- s) = 2 ^ (p - e)). { rewrite <- Z.pow_succ_r by lia. f_equal. lia. }
        assert (He : 0 <= e).
        { destruct (Z.lt_ge_cases e 0) as [He|He]; [|exact He]. exfalso. assert (2 ^ p < 2 ^ (p - e)) by (apply Z.pow_lt_mono_r; lia). lia. }
        specialize (E1 He). assert (k * 2 ^ e <= x) by nia.
        assert (Ep : 2 ^ p = 2 ^ (p - e) * 2 ^ e) by (rewrite <- pow_split by lia; f_equal; lia).
        pose proof (pow_pos e He) as Pe. pose proof (pow_pos (p - e) ltac:(lia)) as Pq.
        assert (Ek : k = 2 ^ (p - e)) by nia. assert (Exx : x = k * 2 ^ e) by nia.
        rewrite (EX (2 ^ e * 2 ^ (- s))) by (rewrite Exx; ring). rewrite Exx.
        replace (2 ^ e * 2 ^ (- s) * k - k * 2 ^ e * 2 ^ (- s)) with 0 by ring. simpl. lia.
    + intros q Eq. apply EX. rewrite Eq. ring.
Qed.

(** Integers up to 2^p are represented exactly. *)
Lemma round_int x a b : 0 < x <= 2 ^ p -> round_float p (x, 1) = (a, b) -> 0 < b /\ a = x * b.
Proof.
  intros Hx H. unfold round_float in H. destruct (x =? 0) eqn:E0; [lia|]. destruct (x <? 0) eqn:E1; [lia|].
  replace x with (x * 1) in H by lia. destruct (round_pos_spec x 1 1 a b) as (A & _ & B); auto; [|lia|].
  - pose proof (Z.pow_le_mono_r 2 0 p ltac:(lia) ltac:(lia)). simpl in *. lia.
  - split; [exact A|]. apply B. lia.
Qed.

(** Division: off by less than 1 / k and exact if the quotient is an integer. *)
Lemma div_float_spec x k N D : - 2 ^ p <= x <= 2 ^ p -> 0 < k <= 2 ^ p -> div_float p x k = (N, D) ->
  0 < D /\ Z.abs (N * k - x * D) < D /\ (forall q, x = q * k -> N = q * D).
Proof.
  intros Hx Hk. unfold div_float.
  assert (HX : exists b, 0 < b /\ round_float p (x, 1) = (x * b, b)).
  { destruct (Z.lt_trichotomy x 0) as [H|[H|H]].
    - destruct (round_float p (- x, 1)) as [a b] eqn:E. destruct (round_int (- x) a b ltac:(lia) E) as [B1 B2].
      exists b. split; [exact B1|]. unfold round_float in E |- *. destruct (- x =? 0) eqn:E0; [lia|]. destruct (- x <? 0) eqn:E1; [lia|].
      destruct (x =? 0) eqn:E2; [lia|]. destruct (x <? 0) eqn:E3; [|lia]. rewrite E. f_equal. lia.
    - subst x. exists 1. split; [lia|reflexivity].
    - destruct (round_float p (x, 1)) as [a b] eqn:E. destruct (round_int x a b ltac:(lia) E) as [B1 B2]. exists b. split; [exact B1|now rewrite B2]. }
  destruct HX as (b & Hb & ->). destruct (round_float p (k, 1)) as [c d] eqn:EK. destruct (round_int k c d Hk EK) as [Hd ->].
  unfold round_float. destruct (x * b * d =? 0) eqn:E0.
  - assert (x = 0) by nia. subst x. intros [= <- <-]. split; [lia|]. split; [simpl; lia|]. intros q Eq. nia.
  - destruct (x * b * d <? 0) eqn:E1.
    + assert (x < 0) by nia. destruct (round_pos p (- (x * b * d)) (b * (k * d))) as [n D'] eqn:ER. intros [= <- <-].
      replace (- (x * b * d)) with ((- x) * (b * d)) in ER by ring. replace (b * (k * d)) with (k * (b * d)) in ER by ring.
      destruct (round_pos_spec (- x) k (b * d) n D' ltac:(lia) Hk ltac:(nia) ER) as (A & B & C).
      split; [exact A|]. split; [lia|]. intros q Eq. specialize (C (- q) ltac:(lia)). lia.
    + intros ER. replace (x * b * d) with (x * (b * d)) in ER by ring. replace (b * (k * d)) with (k * (b * d)) in ER by ring.
      apply (round_pos_spec x k (b * d) N D); auto; nia.
Qed.

Lemma div_float_ceil x k : - 2 ^ p <= x <= 2 ^ p -> 0 < k <= 2 ^ p -> ceil_frac (div_float p x k) = ceil_div x k.
Proof.
  intros Hx Hk. destruct (div_float p x k) as [N D] eqn:E. destruct (div_float_spec x k N D Hx Hk E) as (HD & HA & HE).
  unfold ceil_frac, ceil_div. f_equal.
  pose proof (Z.div_mod (- x) k ltac:(lia)) as M. pose proof (Z.mod_pos_bound (- x) k ltac:(lia)) as R.
  set (q := (- x) / k) in *. set (r := (- x) mod k) in *.
  destruct (Z.eq_dec r 0) as [R0|R0].
  - rewrite (HE (- q)) by nia. replace (- (- q * D)) with (q * D) by ring. apply Z.div_mul. lia.
  - symmetry. apply Z.div_unique with (r := - N - q * D); [|ring]. left. nia.
Qed.

End Prec.

(** The metadata of a strided slice. *)
Lemma slice32_exact m sl : Forall (fun n => 0 <= n <= 2 ^ 24) (lens m) ->
  (forall k, sl_step sl = Some k -> k <= 2 ^ 24) -> index_length_slice32 m sl = index_length_slice m sl.
Proof.
  intros HL HS. unfold index_length_slice32, index_length_slice.
  destruct (max_length m) as [mx|e] eqn:EM; [|reflexivity]. cbn [bind].
  assert (Hmx : 0 <= mx <= 2 ^ 24).
  { unfold max_length, zmax in EM. destruct (lens m) as [|a l] eqn:EL; [discriminate|].
    assert (MA : forall l0 a0, 0 <= a0 <= 2 ^ 24 -> Forall (fun n => 0 <= n <= 2 ^ 24) l0 -> 0 <= fold_left Z.max l0 a0 <= 2 ^ 24).
    { intros l0. induction l0 as [|b l0 IH]; intros a0 H0 HF; [exact H0|]. apply Forall_cons_iff in HF. cbn. apply IH; [lia|tauto]. }
    apply Forall_cons_iff in HL. injection EM as <-. apply MA; tauto. }
  unfold slice_indices. destruct (match sl_step sl with None => 1 | Some k => k end =? 0) eqn:E0; [reflexivity|].
  destruct (mx <? 0) eqn:E1; [lia|]. cbn [bind].
  set (k := match sl_step sl with None => 1 | Some k => k end) in *.
  assert (Hk : k <= 2 ^ 24) by (unfold k; destruct (sl_step sl) as [v|]; [apply HS; reflexivity|lia]).
  destruct (k <? 0) eqn:E2; [reflexivity|]. destruct (k =? 1) eqn:E3; [reflexivity|].
  set (start := match sl_start sl with None => 0 | Some v => if v <? 0 then Z.max (v + mx) 0 else Z.min v mx end).
  assert (Hst : 0 <= start <= mx) by (unfold start; destruct (sl_start sl) as [v|]; [destruct (v <? 0) eqn:Ev; lia|lia]).
  f_equal. apply map_ext_in. intros n Hn. rewrite Forall_forall in HL. specialize (HL n Hn).
  unfold ceil_div32. apply div_float_ceil; [lia| |lia].
  pose proof (Z.mod_pos_bound (mx - 1 - start) k ltac:(lia)). unfold clip. lia.
Qed.

(** Every length n between 2^24 and 2^25 with n mod 4 = 1 is rounded down before it is halved. *)
Lemma exponent_int a e : 0 <= e -> 2 ^ e <= a < 2 ^ (e + 1) -> exponent a 1 = e.
Proof.
  intros He H. unfold exponent. change (Z.log2 1) with 0. rewrite (Z.log2_unique a e He H), Z.sub_0_r.
  destruct (0 <=? e) eqn:E; [|lia]. destruct (1 * 2 ^ e <=? a) eqn:E1; [reflexivity|lia].
Qed.
Lemma halved_short n : 2 ^ 24 < n < 2 ^ 25 -> n mod 4 = 1 -> ceil_div32 n 2 = (n - 1) / 2.
Proof.
  intros H M. unfold ceil_div32, div_float.
  pose proof (Z.div_mod n 4 ltac:(lia)) as E. rewrite M in E. set (u := n / 4) in *.
  assert (E1 : round_float 24 (n, 1) = (4 * u, 1)).
  { unfold round_float. destruct (n =? 0) eqn:E0; [lia|]. destruct (n <? 0) eqn:E2; [lia|]. unfold round_pos.
    rewrite (exponent_int n 24 ltac:(lia)) by (change (24 + 1) with 25; lia). change (24 - (24 - 1)) with 1. change (0 <=? 1) with true. cbn iota. change (1 * 2 ^ 1) with 2. change (2 ^ 1) with 2.
    f_equal. unfold nearest. assert (Q : n / 2 = 2 * u) by (symmetry; apply Z.div_unique with (r := 1); lia).
    assert (R : n mod 2 = 1) by (symmetry; apply Z.mod_unique with (q := 2 * u); lia). rewrite Q, R. change (2 * 1 <? 2) with false. change (2 <? 2 * 1) with false. cbn iota.
    rewrite Z.even_mul. change (Z.even 2) with true. cbn [orb]. lia. }
  assert (E2 : round_float 24 (2, 1) = (2 ^ 23, 2 ^ 22)) by reflexivity.
  rewrite E1, E2. unfold round_float. destruct (4 * u * 2 ^ 22 =? 0) eqn:E0; [lia|]. destruct (4 * u * 2 ^ 22 <? 0) eqn:E3; [lia|].
  assert (EE : exponent (4 * u * 2 ^ 22) (1 * 2 ^ 23) = 23).
  { unfold exponent. change (Z.log2 (1 * 2 ^ 23)) with 23. rewrite (Z.log2_unique _ 46); [|lia|].
    - change (46 - 23) with 23. change (0 <=? 23) with true. cbn iota. destruct (1 * 2 ^ 23 * 2 ^ 23 <=? 4 * u * 2 ^ 22) eqn:E4; [reflexivity|lia].
    - change (46 + 1) with 47. lia. }
  unfold round_pos. rewrite EE. change (23 - (24 - 1)) with 0. change (0 <=? 0) with true. cbn iota. change (2 ^ 0) with 1.
  replace (4 * u * 2 ^ 22) with (2 * u * (1 * 2 ^ 23 * 1)) by ring. rewrite nearest_exact by reflexivity.
  unfold ceil_frac. rewrite Z.div_1_r. replace (n - 1) with (2 * u * 2) by lia. rewrite Z.div_mul by lia. lia.
Qed.

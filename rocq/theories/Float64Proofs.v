(** Proofs about the chunk size in double precision. *)

From Coq Require Import String List ZArith Bool Lia.
From Coq Require Import ZifyBool.
From Verif Require Import Py Meta Pad Data F32 F32Proofs Float64.
Import ListNotations.
Open Scope Z_scope.

Lemma near_nearest a b n : 0 < b -> 2 * Z.abs (a - n * b) < b -> nearest a b = n.
Proof.
  intros Hb H. unfold nearest. pose proof (Z.div_mod a b ltac:(lia)) as E. pose proof (Z.mod_pos_bound a b Hb) as R.
  assert (Q : a / b = n \/ a / b = n - 1) by nia.
  destruct Q as [Q|Q]; rewrite Q in *.
  - destruct (2 * (a mod b) <? b) eqn:H1; [reflexivity|]. nia.
  - destruct (2 * (a mod b) <? b) eqn:H1; [nia|]. destruct (b <? 2 * (a mod b)) eqn:H2; [lia|]. nia.
Qed.

Lemma near_py_round a b n : 0 < b -> 2 * Z.abs (a - n * b) < b -> py_round a b = Ok n.
Proof.
  intros Hb H. pose proof (near_nearest a b n Hb H) as E. unfold nearest in E. unfold py_round.
  destruct (b =? 0) eqn:E0; [lia|]. destruct (b <? 0) eqn:E1; [lia|]. rewrite Z.abs_eq by lia. cbv zeta. rewrite E. reflexivity.
Qed.

(** The rounding error is at most 2^-p of the number. *)
Lemma round_rel p a b N D : 0 < p -> 0 < a -> 0 < b -> round_float p (a, b) = (N, D) ->
  0 < D /\ 2 ^ p * Z.abs (N * b - a * D) <= a * D.
Proof.
  intros Hp Ha Hb. unfold round_float. destruct (a =? 0) eqn:E0; [lia|]. destruct (a <? 0) eqn:E1; [lia|].
  unfold round_pos. pose proof (exponent_spec a b Ha Hb) as [X1 X2]. set (e := exponent a b) in *. clearbody e.
  assert (EP : 2 ^ p = 2 * 2 ^ (p - 1)) by (replace p with (1 + (p - 1)) at 1 by lia; rewrite pow_split; lia). rewrite EP.
  destruct (0 <=? e - (p - 1)) eqn:S; intros [= <- <-].
  - split; [lia|]. assert (He : 0 <= e) by lia. destruct (X1 He) as [L _].
    replace e with ((e - (p - 1)) + (p - 1)) in L at 1 by lia. rewrite pow_split in L by lia.
    pose proof (pow_pos (e - (p - 1)) ltac:(lia)) as P1. pose proof (pow_pos (p - 1) ltac:(lia)) as P2.
    set (u := 2 ^ (e - (p - 1))) in *. set (v := 2 ^ (p - 1)) in *. clearbody u v.
    pose proof (nearest_half a (b * u) ltac:(nia)) as H. set (m := nearest a (b * u)) in *. clearbody m.
    replace (m * (b * u) - a) with (m * u * b - a * 1) in H by ring. set (z := Z.abs (m * u * b - a * 1)) in *. clearbody z. nia.
  - pose proof (pow_pos (- (e - (p - 1))) ltac:(lia)) as P1. split; [lia|].
    pose proof (pow_pos (p - 1) ltac:(lia)) as P2.
    assert (L : b * 2 ^ (p - 1) <= a * 2 ^ (- (e - (p - 1)))).
    { destruct (Z_le_gt_dec 0 e) as [He|He].
      - destruct (X1 He) as [L _]. replace (p - 1) with (e + (- (e - (p - 1)))) at 1 by lia. rewrite pow_split by lia. nia.
      - destruct (X2 ltac:(lia)) as [L _]. replace (- (e - (p - 1))) with (- e + (p - 1)) by lia. rewrite pow_split by lia. nia. }
    set (u := 2 ^ (- (e - (p - 1)))) in *. set (v := 2 ^ (p - 1)) in *. clearbody u v.
    pose proof (nearest_half (a * u) b Hb) as H. set (m := nearest (a * u) b) in *. clearbody m.
    set (z := Z.abs (m * b - a * u)) in *. clearbody z. nia.
Qed.

(** The same as two inequalities; the rounded number is positive. *)
Lemma round_bounds p a b N D : 1 < p -> 0 < a -> 0 < b -> round_float p (a, b) = (N, D) ->
  0 < D /\ 0 < N /\ N * b * 2 ^ p <= a * D * (2 ^ p + 1) /\ a * D * (2 ^ p - 1) <= N * b * 2 ^ p.
Proof.
  intros Hp Ha Hb H. destruct (round_rel p a b N D ltac:(lia) Ha Hb H) as [HD HR].
  assert (HU : 4 <= 2 ^ p) by (change 4 with (2 ^ 2); apply Z.pow_le_mono_r; lia).
  set (U := 2 ^ p) in *. clearbody U. assert (HA : 0 < a * D) by nia.
  assert (A1 : U * (N * b - a * D) <= a * D) by nia. assert (A2 : U * (a * D - N * b) <= a * D) by nia.
  split; [exact HD|]. split; [nia|]. split; nia.
Qed.

(** A product of inequalities between nonnegative numbers. *)
Lemma le_cancel k a b : 0 < k -> k * a <= k * b -> a <= b.
Proof. nia. Qed.

Lemma chain_upper U ca cb rate n L X Xd S Sd Q Qd :
  1 < U -> 0 < ca -> 0 < cb -> 0 < rate -> 0 < n -> 0 < L -> 0 < X -> 0 < Xd -> 0 < S -> 0 < Sd -> 0 < Q -> 0 < Qd ->
  X * cb * U <= ca * rate * Xd * (U + 1) -> n * Sd * (U - 1) <= S * L * U -> Q * (Xd * S) * U <= X * Sd * Qd * (U + 1) ->
  Q * (cb * n) * (U * (U - 1)) <= ca * rate * L * Qd * ((U + 1) * (U + 1)).
Proof.
  intros HU H1 H2 H3 H4 H5 H6 H7 H8 H9 H10 H11 HX HS HQ.
  assert (A1 : Xd * (Q * S * U * U * cb) <= Xd * (ca * rate * Sd * Qd * ((U + 1) * (U + 1)))).
  { apply Z.le_trans with (cb * U * (X * Sd * Qd * (U + 1))).
    - replace (Xd * (Q * S * U * U * cb)) with (cb * U * (Q * (Xd * S) * U)) by ring. apply Z.mul_le_mono_nonneg_l; [nia|exact HQ].
    - replace (cb * U * (X * Sd * Qd * (U + 1))) with ((Sd * Qd * (U + 1)) * (X * cb * U)) by ring.
      replace (Xd * (ca * rate * Sd * Qd * ((U + 1) * (U + 1)))) with ((Sd * Qd * (U + 1)) * (ca * rate * Xd * (U + 1))) by ring.
      apply Z.mul_le_mono_nonneg_l; [|exact HX]. assert (0 < Sd * Qd) by nia. nia. }
  apply le_cancel in A1; [|exact H7].
  apply (le_cancel Sd); [exact H9|].
  apply Z.le_trans with (L * (Q * S * U * U * cb)).
  - replace (Sd * (Q * (cb * n) * (U * (U - 1)))) with ((Q * cb * U) * (n * Sd * (U - 1))) by ring.
    replace (L * (Q * S * U * U * cb)) with ((Q * cb * U) * (S * L * U)) by ring.
    apply Z.mul_le_mono_nonneg_l; [|exact HS]. assert (0 < Q * cb) by nia. nia.
  - replace (Sd * (ca * rate * L * Qd * ((U + 1) * (U + 1)))) with (L * (ca * rate * Sd * Qd * ((U + 1) * (U + 1)))) by ring.
    apply Z.mul_le_mono_nonneg_l; [lia|exact A1].
Qed.

Lemma chain_lower U ca cb rate n L X Xd S Sd Q Qd :
  1 < U -> 0 < ca -> 0 < cb -> 0 < rate -> 0 < n -> 0 < L -> 0 < X -> 0 < Xd -> 0 < S -> 0 < Sd -> 0 < Q -> 0 < Qd ->
  ca * rate * Xd * (U - 1) <= X * cb * U -> S * L * U <= n * Sd * (U + 1) -> X * Sd * Qd * (U - 1) <= Q * (Xd * S) * U ->
  ca * rate * L * Qd * ((U - 1) * (U - 1)) <= Q * (cb * n) * (U * (U + 1)).
Proof.
  intros HU H1 H2 H3 H4 H5 H6 H7 H8 H9 H10 H11 HX HS HQ.
  assert (A1 : Xd * (ca * rate * Sd * Qd * ((U - 1) * (U - 1))) <= Xd * (Q * S * U * U * cb)).
  { apply Z.le_trans with (cb * U * (X * Sd * Qd * (U - 1))).
    - replace (cb * U * (X * Sd * Qd * (U - 1))) with ((Sd * Qd * (U - 1)) * (X * cb * U)) by ring.
      replace (Xd * (ca * rate * Sd * Qd * ((U - 1) * (U - 1)))) with ((Sd * Qd * (U - 1)) * (ca * rate * Xd * (U - 1))) by ring.
      apply Z.mul_le_mono_nonneg_l; [|exact HX]. assert (0 < Sd * Qd) by nia. nia.
    - replace (Xd * (Q * S * U * U * cb)) with (cb * U * (Q * (Xd * S) * U)) by ring. apply Z.mul_le_mono_nonneg_l; [nia|exact HQ]. }
  apply le_cancel in A1; [|exact H7].
  apply (le_cancel Sd); [exact H9|].
  apply Z.le_trans with (L * (Q * S * U * U * cb)).
  - replace (Sd * (ca * rate * L * Qd * ((U - 1) * (U - 1)))) with (L * (ca * rate * Sd * Qd * ((U - 1) * (U - 1)))) by ring.
    apply Z.mul_le_mono_nonneg_l; [lia|exact A1].
  - replace (Sd * (Q * (cb * n) * (U * (U + 1)))) with ((Q * cb * U) * (n * Sd * (U + 1))) by ring.
    replace (L * (Q * S * U * U * cb)) with ((Q * cb * U) * (S * L * U)) by ring.
    apply Z.mul_le_mono_nonneg_l; [|exact HS]. assert (0 < Q * cb) by nia. nia.
Qed.

(** Relative error at most 4 / U from the two bounds. *)
Lemma within U x y : 5 <= U -> 0 <= x -> 0 <= y -> y * (U * (U - 1)) <= x * ((U + 1) * (U + 1)) -> x * ((U - 1) * (U - 1)) <= y * (U * (U + 1)) ->
  U * Z.abs (y - x) <= 4 * x.
Proof.
  intros HU Hx Hy H1 H2.
  assert (A : U * (y - x) <= 4 * x).
  { apply (le_cancel (U - 1)); [lia|].
    replace ((U - 1) * (U * (y - x))) with (y * (U * (U - 1)) - x * (U * (U - 1))) by ring.
    assert (x * ((U + 1) * (U + 1)) - x * (U * (U - 1)) <= (U - 1) * (4 * x)).
    { replace (x * ((U + 1) * (U + 1)) - x * (U * (U - 1))) with (x * (3 * U + 1)) by ring. nia. }
    lia. }
  assert (B : U * (x - y) <= 4 * x).
  { apply (le_cancel (U + 1)); [lia|].
    replace ((U + 1) * (U * (x - y))) with (x * (U * (U + 1)) - y * (U * (U + 1))) by ring.
    assert (x * (U * (U + 1)) - x * ((U - 1) * (U - 1)) <= (U + 1) * (4 * x)).
    { replace (x * (U * (U + 1)) - x * ((U - 1) * (U - 1))) with (x * (3 * U - 1)) by ring. nia. }
    lia. }
  nia.
Qed.

Definition U53 : Z := 2 ^ 53.

(** stream_dataset.py 205-206 in floats: off by at most 2^-51 of the exact value, before rounding to an int. *)
Lemma chunk_size64_near ca cb rate n L : 0 < ca -> 0 < cb -> 0 < rate <= U53 -> 0 < n -> 0 < L ->
  exists Q Qd, chunk_size64 (ca, cb) rate n L = Ok (nearest Q Qd) /\ 0 < Qd /\
    U53 * Z.abs (Q * (cb * n) - ca * rate * L * Qd) <= 4 * (ca * rate * L * Qd).
Proof.
  intros H1 H2 H3 H4 H5. unfold chunk_size64. destruct (L =? 0) eqn:E0; [lia|].
  destruct (round_float 53 (n, L)) as [S Sd] eqn:ES.
  destruct (round_bounds 53 n L S Sd ltac:(lia) H4 H5 ES) as (S1 & S2 & S3 & S4).
  cbn [fst]. destruct (S =? 0) eqn:E1; [lia|]. unfold mul_int.
  destruct (round_float 53 (rate, 1)) as [R Rd] eqn:ER.
  destruct (round_int 53 ltac:(lia) rate R Rd H3 ER) as [R1 R2]. subst R.
  destruct (round_float 53 (ca * (rate * Rd), cb * Rd)) as [X Xd] eqn:EX.
  destruct (round_bounds 53 (ca * (rate * Rd)) (cb * Rd) X Xd ltac:(lia) ltac:(nia) ltac:(nia) EX) as (X1 & X2 & X3 & X4).
  unfold div_floats. destruct (round_float 53 (X * Sd, Xd * S)) as [Q Qd] eqn:EQ.
  destruct (round_bounds 53 (X * Sd) (Xd * S) Q Qd ltac:(lia) ltac:(nia) ltac:(nia) EQ) as (Q1 & Q2 & Q3 & Q4).
  exists Q, Qd. split; [reflexivity|]. split; [exact Q1|].
  fold U53 in S3, S4, X3, X4, Q3, Q4. assert (HU : 5 <= U53) by (unfold U53; lia). set (U := U53) in *. clearbody U.
  assert (X3' : X * cb * U <= ca * rate * Xd * (U + 1)) by (apply (le_cancel Rd); [exact R1|lia]).
  assert (X4' : ca * rate * Xd * (U - 1) <= X * cb * U) by (apply (le_cancel Rd); [exact R1|lia]).
  pose proof (chain_upper U ca cb rate n L X Xd S Sd Q Qd ltac:(lia) H1 H2 ltac:(lia) H4 H5 X2 X1 S2 S1 Q2 Q1 X3' S4 Q3) as CU.
  pose proof (chain_lower U ca cb rate n L X Xd S Sd Q Qd ltac:(lia) H1 H2 ltac:(lia) H4 H5 X2 X1 S2 S1 Q2 Q1 X4' S3 Q4) as CL.
  assert (0 < ca * rate) by nia. assert (0 < ca * rate * L) by nia. assert (0 < cb * n) by nia.
  apply within; [lia|nia|nia|exact CU|exact CL].
Qed.

(** An int at a distance of less than a half, by more than 2^-51 of the value, is the chunk size, in floats and exactly. *)
Lemma chunk_size64_safe ca cb rate n L N : 0 < ca -> 0 < cb -> 0 < rate <= U53 -> 0 < n -> 0 < L ->
  U53 * (2 * Z.abs (ca * rate * L - N * (cb * n))) + 8 * (ca * rate * L) < U53 * (cb * n) ->
  chunk_size64 (ca, cb) rate n L = Ok N /\ chunk_size ca cb rate n L = Ok N.
Proof.
  intros H1 H2 H3 H4 H5 HN. destruct (chunk_size64_near ca cb rate n L H1 H2 H3 H4 H5) as (Q & Qd & E & HQ & HB).
  assert (HU : 0 < U53) by (unfold U53; lia). set (U := U53) in *. clearbody U.
  assert (HA : 0 < ca * rate * L) by (assert (0 < ca * rate) by nia; nia). assert (HBn : 0 < cb * n) by nia.
  remember (ca * rate * L) as A eqn:EA. remember (cb * n) as B eqn:EB. split.
  - rewrite E. clear EA EB E H1 H2 H3 H4 H5. f_equal. apply near_nearest; [exact HQ|].
    apply Z.mul_lt_mono_pos_l with (p := U * B); [nia|].
    assert (T : Z.abs ((Q - N * Qd) * B) <= Z.abs (Q * B - A * Qd) + Qd * Z.abs (A - N * B)).
    { replace ((Q - N * Qd) * B) with ((Q * B - A * Qd) + Qd * (A - N * B)) by ring.
      eapply Z.le_trans; [apply Z.abs_triangle|]. rewrite Z.abs_mul, (Z.abs_eq Qd) by lia. lia. }
    rewrite Z.abs_mul, (Z.abs_eq B) in T by lia.
    set (z := Z.abs (Q - N * Qd)) in *. set (y := Z.abs (Q * B - A * Qd)) in *. set (x := Z.abs (A - N * B)) in *. clearbody x y z.
    assert (T2 : U * (z * B) <= U * y + Qd * (U * x)) by nia.
    assert (T3 : Qd * (U * (2 * x) + 8 * A) < Qd * (U * B)) by nia. nia.
  - unfold chunk_size. destruct (L =? 0) eqn:E0; [lia|]. rewrite <- EA, <- EB.
    apply near_py_round; [exact HBn|]. clear EA EB HB E. set (x := Z.abs (A - N * B)) in *. clearbody x. nia.
Qed.

(** In every case the result is nearest to the exact value up to 2^-51 of it. *)
Lemma chunk_size64_half ca cb rate n L N : 0 < ca -> 0 < cb -> 0 < rate <= U53 -> 0 < n -> 0 < L ->
  chunk_size64 (ca, cb) rate n L = Ok N ->
  U53 * (2 * Z.abs (N * (cb * n) - ca * rate * L)) <= U53 * (cb * n) + 8 * (ca * rate * L).
Proof.
  intros H1 H2 H3 H4 H5 HN. destruct (chunk_size64_near ca cb rate n L H1 H2 H3 H4 H5) as (Q & Qd & E & HQ & HB).
  rewrite E in HN. injection HN as <-. pose proof (nearest_half Q Qd HQ) as HH.
  assert (HU : 0 < U53) by (unfold U53; lia). set (U := U53) in *. clearbody U.
  assert (HA : 0 < ca * rate * L) by (assert (0 < ca * rate) by nia; nia). assert (HBn : 0 < cb * n) by nia.
  remember (ca * rate * L) as A eqn:EA. remember (cb * n) as B eqn:EB. clear EA EB E H1 H2 H3 H4 H5.
  set (N := nearest Q Qd) in *. clearbody N.
  apply (le_cancel Qd); [exact HQ|].
  assert (T : Qd * Z.abs (N * B - A) <= B * Z.abs (N * Qd - Q) + Z.abs (Q * B - A * Qd)).
  { rewrite <- (Z.abs_eq Qd) at 1 by lia. rewrite <- Z.abs_mul. replace (Qd * (N * B - A)) with (B * (N * Qd - Q) + (Q * B - A * Qd)) by ring.
    eapply Z.le_trans; [apply Z.abs_triangle|]. rewrite Z.abs_mul, (Z.abs_eq B) by lia. lia. }
  set (x := Z.abs (N * B - A)) in *. set (y := Z.abs (N * Qd - Q)) in *. set (z := Z.abs (Q * B - A * Qd)) in *. clearbody x y z.
  assert (T1 : U * (2 * (Qd * x)) <= U * (B * (2 * y)) + 2 * (U * z)) by nia.
  assert (T2 : U * (B * (2 * y)) <= U * (B * Qd)) by nia. nia.
Qed.

(** chunk_seconds written as a fraction [qn / qd] (0.1, say) and rounded to a float. *)
Lemma chunk_size64_decimal qn qd c rate n L N : 0 < qn -> 0 < qd -> round_float 53 (qn, qd) = c -> 0 < rate <= U53 -> 0 < n -> 0 < L ->
  qn * rate * L = N * (qd * n) -> N <= 2 ^ 49 -> chunk_size64 c rate n L = Ok N.
Proof.
  intros H1 H2 Hc H3 H4 H5 HN HM. destruct c as [ca cb]. destruct (round_rel 53 qn qd ca cb ltac:(lia) H1 H2 Hc) as [HD HR].
  destruct (round_bounds 53 qn qd ca cb ltac:(lia) H1 H2 Hc) as (_ & HC & _ & _). fold U53 in HR.
  apply chunk_size64_safe; auto. apply Z.mul_lt_mono_pos_l with (p := qd); [exact H2|].
  assert (HU : U53 = 2 ^ 49 * 16) by reflexivity. assert (HU5 : 1 < U53) by (unfold U53; lia). set (U := U53) in *. clearbody U.
  assert (HRL : 0 < rate * L) by nia. set (k := rate * L) in *.
  replace (qn * rate * L) with (qn * k) in HN by (unfold k; ring). replace (ca * rate * L) with (ca * k) by (unfold k; ring). clearbody k.
  assert (HN1 : 0 < N) by (assert (0 < qn * k) by nia; assert (0 < qd * n) by nia; nia).
  assert (EA : qd * Z.abs (ca * k - N * (cb * n)) = k * Z.abs (ca * qd - qn * cb)).
  { rewrite <- (Z.abs_eq qd) at 1 by lia. rewrite <- (Z.abs_eq k) at 2 by lia. rewrite <- !Z.abs_mul. f_equal.
    replace (qd * (ca * k - N * (cb * n))) with (k * (ca * qd) - cb * (N * (qd * n))) by ring. rewrite <- HN. ring. }
  assert (EC : U * (ca * qd) <= (U + 1) * (qn * cb)) by nia.
  assert (EC2 : ca * qd <= 2 * (qn * cb)) by nia.
  assert (G1 : U * (k * Z.abs (ca * qd - qn * cb)) <= k * (qn * cb)) by nia.
  assert (W : 0 < cb * (qd * n)) by (assert (0 < qd * n) by nia; nia).
  assert (G2 : k * (qn * cb) = N * (cb * (qd * n))) by (replace (k * (qn * cb)) with (cb * (qn * k)) by ring; rewrite HN; ring).
  assert (G3 : 8 * (ca * k) * qd <= 9 * (N * (cb * (qd * n)))).
  { apply (le_cancel U); [lia|]. replace (U * (8 * (ca * k) * qd)) with (8 * k * (U * (ca * qd))) by ring.
    apply Z.le_trans with (8 * k * ((U + 1) * (qn * cb))); [apply Z.mul_le_mono_nonneg_l; lia|].
    replace (8 * k * ((U + 1) * (qn * cb))) with ((8 * (U + 1)) * (k * (qn * cb))) by ring. rewrite G2.
    set (w := N * (cb * (qd * n))). assert (0 < w) by (unfold w; nia). clearbody w. nia. }
  replace (qd * (U * (2 * Z.abs (ca * k - N * (cb * n))) + 8 * (ca * k)))
    with (2 * (U * (qd * Z.abs (ca * k - N * (cb * n)))) + 8 * (ca * k) * qd) by ring.
  rewrite EA. replace (qd * (U * (cb * n))) with (U * (cb * (qd * n))) by ring. rewrite G2 in G1.
  set (w := cb * (qd * n)) in *. set (z := U * (k * Z.abs (ca * qd - qn * cb))) in *. set (y := 8 * (ca * k) * qd) in *.
  clearbody w z y. assert (N * w < 16 * 2 ^ 49 * w); [|nia]. nia.
Qed.

Section Process.
Context {V : Type}.

Lemma process_data64_same (w : world V) d f raw rate N : load w f = Ok (raw, rate) -> raw <> [] -> transform w raw <> [] ->
  0 < dcn d -> 0 < dcd d -> 0 < rate <= U53 ->
  U53 * (2 * Z.abs (dcn d * rate * zlen (transform w raw) - N * (dcd d * zlen raw))) + 8 * (dcn d * rate * zlen (transform w raw))
    < U53 * (dcd d * zlen raw) ->
  process_data64 w d f = process_data w d f.
Proof.
  intros HL H1 H2 H3 H4 H5 HN. unfold process_data64, process_data. rewrite HL. cbn [bind].
  assert (0 < zlen raw) by (unfold zlen; destruct raw; [contradiction|cbn; lia]).
  assert (0 < zlen (transform w raw)) by (unfold zlen; destruct (transform w raw); [contradiction|cbn; lia]).
  destruct (chunk_size64_safe (dcn d) (dcd d) rate (zlen raw) (zlen (transform w raw)) N) as [E1 E2]; auto.
  rewrite E1, E2. reflexivity.
Qed.

End Process.

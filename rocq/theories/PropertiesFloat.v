(** Theorems of record about the single-precision division in strided slices. *)

From Coq Require Import String List ZArith Bool Lia.
From Coq Require Import ZifyBool.
From Verif Require Import Py Meta MetaSpec MetaProofs MetaLenProofs F32 F32Proofs.
Import ListNotations.
Open Scope string_scope.
Open Scope list_scope.
Open Scope Z_scope.

(* ------------------------------------------------------------------ C60 *)

(** Up to 2^24 the rounded division gives the smallest integer that is at least x / k. *)
Theorem C60_division : forall x k, - 2 ^ 24 <= x <= 2 ^ 24 -> 0 < k <= 2 ^ 24 ->
  (ceil_div32 x k - 1) * k < x <= ceil_div32 x k * k.
Proof.
  intros x k Hx Hk. unfold ceil_div32. rewrite div_float_ceil by lia. unfold ceil_div.
  pose proof (Z.div_mod (- x) k ltac:(lia)). pose proof (Z.mod_pos_bound (- x) k ltac:(lia)). nia.
Qed.
Example C60_division_example :
  div_float 24 10 3 = (13981013, 2 ^ 22) /\ ceil_div32 10 3 = 4 /\ ceil_div32 (2 ^ 24) 3 = 5592406 /\ ceil_div32 (-5) 6 = 0.
Proof. split; [vm_compute; reflexivity|]. split; [vm_compute; reflexivity|]. split; vm_compute; reflexivity. Qed.

(** The metadata of x[a::k] for streams of up to 2^24 steps: as C03. *)
Theorem C60_strided : forall c rs mx a k, 1 < k <= 2 ^ 24 -> 0 <= mx <= 2 ^ 24 -> nonneg rs -> is_max_len rs mx ->
  let ps := slice_positions mx a None k in
  index_length_slice32 (of_rows c rs) (mkSlice a None (Some k))
  = Ok (of_rows c (map (fun r => mkRow (rid r) (rsos r && memb 0 ps)
                                   (reos r && existsb (fun p => p <? rlen r) ps && existsb (fun p => rlen r - 1 <=? p) ps)
                                   (count_real ps (rlen r)) (rch r)) rs)).
Proof.
  intros c rs mx a k Hk Hm Hn HM ps. rewrite slice32_exact.
  - exact (index_slice_strided c rs mx a k ltac:(lia) ltac:(lia) Hn HM).
  - cbn [of_rows lens]. apply Forall_forall. intros n Hi. apply in_map_iff in Hi. destruct Hi as (r & <- & Hr).
    destruct HM as [_ HM]. specialize (HM r Hr). unfold nonneg in Hn. rewrite Forall_forall in Hn. specialize (Hn r Hr). lia.
  - cbn. intros k' [= <-]. lia.
Qed.
Example C60_strided_example :
  index_length_slice32 (of_rows true [mkRow "a" true false 5 7; mkRow "b" false true 3 8]) (mkSlice (Some 1) None (Some 2))
  = Ok (of_rows true [mkRow "a" false false 2 7; mkRow "b" false true 1 8]).
Proof. vm_compute. reflexivity. Qed.

(** Beyond 2^24 the last step is lost: every length n with 2^24 < n < 2^25 and n mod 4 = 1 is halved to (n - 1) / 2, although
    x[::2] keeps (n + 1) / 2 steps. *)
Theorem C60_long_refuted : forall n, 2 ^ 24 < n < 2 ^ 25 -> n mod 4 = 1 ->
  exists m', index_length_slice32 (of_rows false [mkRow "a" true true n 0]) (mkSlice None None (Some 2)) = Ok m' /\
    lens m' = [(n - 1) / 2] /\ count_real (slice_positions n None None 2) n = (n + 1) / 2.
Proof.
  intros n H M.
  assert (HM : is_max_len [mkRow "a" true true n 0] n) by (split; [eexists; split; [left; reflexivity|reflexivity]|intros r [<-|[]]; cbn; lia]).
  assert (NN : nonneg [mkRow "a" true true n 0]) by (constructor; [cbn; lia|constructor]).
  pose proof (Z.div_mod n 4 ltac:(lia)) as E. rewrite M in E. set (u := n / 4) in *.
  assert (MM : (n - 1 - 0) mod 2 = 0) by (rewrite E; replace (4 * u + 1 - 1 - 0) with (2 * u * 2) by ring; apply Z.mod_mul; lia).
  assert (CL : clip (n - 0) 0 (n - 0 - 0) = n) by (unfold clip; lia).
  assert (G : (n - 0 >? 0) = true) by lia.
  unfold index_length_slice32, max_length. cbn [of_rows lens map rlen zmax fold_left bind].
  unfold slice_indices. cbn [sl_step sl_start sl_stop]. change (2 =? 0) with false. cbn iota. destruct (n <? 0) eqn:E0; [lia|]. cbn [bind].
  change (2 <? 0) with false. change (2 =? 1) with false. cbn iota. rewrite MM, CL, G, halved_short by auto.
  eexists. split; [reflexivity|]. split; [reflexivity|].
  pose proof (index_slice_strided false _ n None 2 ltac:(lia) ltac:(lia) NN HM) as S. cbn zeta in S.
  unfold index_length, index_length_slice, max_length in S. cbn [of_rows lens map rlen zmax fold_left bind] in S.
  unfold slice_indices in S. cbn [sl_step sl_start sl_stop] in S. change (2 =? 0) with false in S. cbn iota in S. rewrite E0 in S. cbn [bind] in S.
  change (2 <? 0) with false in S. change (2 =? 1) with false in S. cbn iota in S. rewrite MM, CL, G in S.
  apply (f_equal (fun r => match r with Ok m => lens m | Err _ => [] end)) in S. cbn in S. injection S as S.
  rewrite <- S, ceil_div_eq by lia. f_equal. lia.
Qed.
Example C60_long_refuted_example :
  ceil_div32 (2 ^ 24 + 1) 2 = 2 ^ 23 /\ (2 ^ 24 + 1 + 1) / 2 = 2 ^ 23 + 1 /\ (2 ^ 24 + 1) mod 4 = 1.
Proof. split; [vm_compute; reflexivity|]. split; reflexivity. Qed.

(* ---- assumptions *)
Print Assumptions C60_division.
Print Assumptions C60_strided.
Print Assumptions C60_long_refuted.

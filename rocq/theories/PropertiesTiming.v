(** Theorems of record: timing (C70). Times are in seconds. *)

From Coq Require Import String Ascii List ZArith QArith Qabs Bool Lia Lqa.
From Coq Require Import ZifyBool.
From Verif Require Import Py Timing TimingSpec TimingProofs.
Import ListNotations.
Open Scope string_scope.
Open Scope list_scope.
Open Scope Z_scope.

(** The text is a decimal number followed by a unit; read back it is the closest number of [precision] significant digits
    to the time given. *)
Theorem C70_value : forall dt unit precision s, format_time dt unit precision = Ok s ->
  (exists q, shows s q) /\ forall q, shows s q -> closest (Z.max 1 precision) dt q.
Proof.
  intros dt unit p s H. split; [|intros q; apply (format_time_shows dt unit p s q H)].
  destruct (format_time_value dt unit p s H) as (num & name & sec & r & E & S & D & _). exists (r * sec)%Q, num, name, sec, r.
  split; [exact E|]. split; [exact S|]. split; [exact D|reflexivity].
Qed.

(** A text of this kind says one time only. *)
Theorem C70_unambiguous : forall s q q', shows s q -> shows s q' -> (q == q')%Q.
Proof. exact shows_unique. Qed.

(** Unless a unit is asked for, it is the largest that is not longer than the time, or nanoseconds. *)
Theorem C70_unit : forall dt precision, exists num name sec,
  format_time dt None precision = Ok (num ++ name)%string /\ seconds name = Some sec /\
  ((sec <= dt)%Q \/ name = "ns") /\ (forall n q, seconds n = Some q -> (q <= dt)%Q -> (q <= sec)%Q).
Proof. exact format_time_auto. Qed.

(** A unit that is asked for is used; unknown units, and only they, are refused. *)
Theorem C70_unit_given : forall dt n precision,
  (exists num q, seconds n = Some q /\ format_time dt (Some n) precision = Ok (num ++ n)%string) \/
  (seconds n = None /\ format_time dt (Some n) precision = Err KeyError).
Proof.
  intros dt n p. unfold format_time. destruct (find_unit n) as [u|e] eqn:E; cbn [bind].
  - apply find_unit_iff in E as ->. destruct (seconds_unit u) as (q & Q1 & _). left. eauto.
  - right. split; [|now rewrite (find_unit_err _ _ E)]. destruct (seconds n) as [q|] eqn:S; [|reflexivity]. apply seconds_iff in S as (u & -> & _).
    assert (F : find_unit (unit_name u) = Ok u) by now apply find_unit_iff. congruence.
Qed.

(** A longer time is not shown as a shorter one, whatever the units. *)
Theorem C70_monotone : forall dt1 dt2 unit1 unit2 precision s1 s2 q1 q2, (dt1 < dt2)%Q ->
  format_time dt1 unit1 precision = Ok s1 -> format_time dt2 unit2 precision = Ok s2 -> shows s1 q1 -> shows s2 q2 -> (q1 <= q2)%Q.
Proof.
  intros dt1 dt2 u1 u2 p s1 s2 q1 q2 Hlt H1 H2 S1 S2.
  destruct (format_time_shows _ _ _ _ _ H1 S1) as [F1 C1]. destruct (format_time_shows _ _ _ _ _ H2 S2) as [F2 C2].
  specialize (C1 _ F2). specialize (C2 _ F1). revert C1 C2. apply Qabs_case; apply Qabs_case; intros; try lra; revert C2; apply Qabs_case; apply Qabs_case; intros; lra.
Qed.

(** The documented length (7 for precision 4) holds from a nanosecond up to where the number of seconds has more than
    [precision] digits. *)
Theorem C70_length_partial : forall dt precision s, 4 <= precision ->
  ((1 # 1000000000) <= dt)%Q -> (dt < inject_Z (10 ^ precision) - (1 # 2))%Q ->
  format_time dt None precision = Ok s -> Z.of_nat (String.length s) <= precision + 3.
Proof. exact format_time_length. Qed.

(** Not so for shorter and longer times. *)
Theorem C70_length_refuted : exists short long s1 s2, (0 < short)%Q /\
  format_time short None 4 = Ok s1 /\ format_time long None 4 = Ok s2 /\ (7 < String.length s1)%nat /\ (7 < String.length s2)%nat.
Proof.
  exists (1234 # 10000000000000), (12345 # 1), "0.1234ns", "1.234e+04s". split; [reflexivity|]. split; [vm_compute; reflexivity|].
  split; [vm_compute; reflexivity|]. split; vm_compute; lia.
Qed.

(** The number of iterations is the smallest multiple of what autorange chose that takes longer than [inner_duration]. *)
Theorem C70_number : forall inner taken number, (0 <= inner)%Q -> (0 < taken)%Q -> 0 < number ->
  exists k, choose_number inner taken number = Ok (k * number) /\ 1 <= k /\
    (inner < inject_Z k * taken)%Q /\ (inject_Z (k - 1) * taken <= inner)%Q.
Proof. exact choose_number_ok. Qed.

(** The results are the minimum, maximum, mean and median of the times per iteration, the deviation is zero exactly if all are equal, and
    the warning is given exactly if the maximum is at least four times the minimum. *)
Theorem C70_summary : forall times number r w, summarise times number = Ok (r, w) ->
  let l := map (fun t => (t / inject_Z number)%Q) times in
  among (t_min r) l /\ among (t_max r) l /\ (forall a, In a l -> (t_min r <= a)%Q /\ (a <= t_max r)%Q) /\
  (t_mean r * inject_Z (Z.of_nat (length times)) == fold_right Qplus 0 l)%Q /\
  at_least_half (fun a => Qle_bool a (t_median r)) l /\ at_least_half (fun a => Qle_bool (t_median r) a) l /\
  (t_min r <= t_median r)%Q /\ (t_median r <= t_max r)%Q /\ (t_min r <= t_mean r)%Q /\ (t_mean r <= t_max r)%Q /\
  (t_var r * inject_Z (Z.of_nat (length times)) == fold_right Qplus 0 (map (fun a => (a - t_mean r) * (a - t_mean r)) l))%Q /\
  (0 <= t_var r)%Q /\ ((t_var r == 0)%Q <-> forall a b, In a l -> In b l -> (a == b)%Q) /\
  (w = true <-> (inject_Z 4 * t_min r <= t_max r)%Q) /\ t_number r = number /\ t_repeats r = Z.of_nat (length times).
Proof. exact summarise_ok. Qed.

(** Without repetitions it fails. *)
Theorem C70_no_repeats : forall times number, summarise times number = Err ValueError <-> times = [].
Proof. exact summarise_empty. Qed.

(** The warning says that the worst time was more than four times slower; it is also given when all times are the same. *)
Theorem C70_warning_refuted : forall number n, exists r, summarise (repeat 0%Q (S n)) number = Ok (r, true) /\
  forall a b, In a (repeat 0%Q (S n)) -> In b (repeat 0%Q (S n)) -> a = b.
Proof.
  intros number n. destruct (summarise (repeat 0%Q (S n)) number) as [[r w]|e] eqn:E.
  - exists r. split.
    + pose proof (summarise_ok _ _ _ _ E) as H. cbn zeta in H. destruct H as ((a & A1 & A2) & (b & B1 & B2) & _ & _ & _ & _ & _ & _ & _ & _ & _ & _ & _ & H & _).
      apply in_map_iff in A1 as (a' & <- & A1). apply in_map_iff in B1 as (b' & <- & B1). apply repeat_spec in A1, B1. subst a' b'.
      assert (w = true) as ->; [|reflexivity]. apply H. rewrite A2, B2. unfold Qdiv. rewrite !Qmult_0_l, Qmult_0_r. apply Qle_refl.
    + intros a b Ha Hb. apply repeat_spec in Ha, Hb. congruence.
  - exfalso. unfold summarise in E. cbn [repeat map] in E. discriminate.
Qed.

(* ---------- examples ---------- *)

Example C70_ex_format :
  format_time (123456 # 1000000) None 4 = Ok "123.5ms" /\ format_time (99999 # 100000) None 4 = Ok "1000ms" /\
  format_time (1 # 1) None 4 = Ok "1s" /\ format_time (15 # 10) (Some "ms") 4 = Ok "1500ms" /\ format_time (15 # 10) (Some "min") 4 = Err KeyError /\
  format_time (125 # 100) (Some "s") 2 = Ok "1.2s" /\ format_time (135 # 100) (Some "s") 2 = Ok "1.4s" /\
  format_time (0 # 1) None 4 = Ok "0ns" /\ format_time (1 # 100000) (Some "s") 4 = Ok "1e-05s" /\ format_time (-1 # 2) (Some "s") 4 = Ok "-0.5s" /\
  format_time (42 # 10000000) None 4 = Ok ("4.2" ++ String (ascii_of_nat 181) "s")%string.
Proof. vm_compute. auto 20. Qed.

Example C70_ex_shows : shows "123.5ms" (1235 # 10000) /\ denotes "1.5e-03" = Some (15 # 10000) /\ denotes "12x" = None /\
  closest 4 (123456 # 1000000) (1235 # 10000).
Proof.
  split. { exists "123.5", "ms", (1 # 1000), (1235 # 10). split; [reflexivity|]. split; [reflexivity|]. split; [vm_compute; reflexivity|reflexivity]. }
  split; [vm_compute; reflexivity|]. split; [reflexivity|]. apply (format_time_shows (123456 # 1000000) None 4 "123.5ms"); [vm_compute; reflexivity|].
  exists "123.5", "ms", (1 # 1000), (1235 # 10). split; [reflexivity|]. split; [reflexivity|]. split; [vm_compute; reflexivity|reflexivity].
Qed.

Example C70_ex_number : choose_number (1 # 1) (3 # 10) 500 = Ok 2000 /\ choose_number (2 # 10) (2 # 10) 500 = Ok 1000 /\
  choose_number (2 # 10) (0 # 1) 500 = Err ZeroDivisionError.
Proof. vm_compute. auto. Qed.

Example C70_ex_summary : exists r, summarise [4 # 1; 1 # 1; 3 # 1; 2 # 1]%Q 2 = Ok (r, true) /\
  (t_min r == 1 # 2)%Q /\ (t_max r == 2 # 1)%Q /\ (t_mean r == 5 # 4)%Q /\ (t_median r == 5 # 4)%Q /\ (t_var r == 5 # 16)%Q.
Proof. eexists. split; [vm_compute; reflexivity|]. vm_compute. auto. Qed.

(* ---- assumptions *)
Print Assumptions C70_value.
Print Assumptions C70_unambiguous.
Print Assumptions C70_unit.
Print Assumptions C70_unit_given.
Print Assumptions C70_monotone.
Print Assumptions C70_length_partial.
Print Assumptions C70_length_refuted.
Print Assumptions C70_number.
Print Assumptions C70_summary.
Print Assumptions C70_no_repeats.
Print Assumptions C70_warning_refuted.

(** Proofs about the text of metadata (C62). *)

From Coq Require Import String List ZArith Bool Lia.
From Coq Require Import ZifyBool.
From Verif Require Import Py Meta Repr.
Import ListNotations.
Open Scope string_scope.
Open Scope list_scope.
Open Scope nat_scope.

(** Characters of a list of texts with two between neighbours. *)
Definition text_width (l : list string) : nat := list_sum (map String.length l) + 2 * (length l - 1).

Lemma text_width_app l s : l <> [] -> text_width (l ++ [s]) = text_width l + String.length s + 2.
Proof.
  intros H. unfold text_width. rewrite map_app, list_sum_app, app_length. cbn [map list_sum fold_right length].
  destruct l; [congruence|]. cbn [length]. lia.
Qed.

Lemma width_all r (l : list string) : (forall s, String.length s + 2 <= String.length (r s)) ->
  list_sum (map String.length l) + 2 * length l <= list_sum (map String.length (map r l)).
Proof. intros H. induction l as [|a l IH]; cbn [map list_sum fold_right length]; [lia|]. specialize (H a). unfold list_sum in *. lia. Qed.

Lemma at_id_some l i : i < length l -> exists s, at_id l i = Ok s /\ nth_error l i = Some s.
Proof. intros H. unfold at_id. destruct (nth_error l i) as [s|] eqn:E; [eauto|]. apply nth_error_None in E. lia. Qed.

Lemma firstn_snoc {X} (l : list X) i a : nth_error l i = Some a -> firstn (i + 1) l = firstn i l ++ [a].
Proof. revert l. induction i as [|i IH]; intros [|x l] H; try discriminate; [injection H as ->; reflexivity|]. cbn in H |- *. f_equal. now apply IH. Qed.

(** The loop with [i] texts shown. *)
Lemma shown_ids_ok r ids last : (forall s, String.length s + 2 <= String.length (r s)) -> 80 < list_sum (map String.length ids) -> 2 <= length ids ->
  nth_error ids (length ids - 1) = Some last ->
  forall fuel i b, length ids - i <= fuel -> 1 <= i < length ids -> nth_error ids i = Some b ->
  (i = 1 \/ text_width (map r (firstn i ids)) + 7 + String.length (r last) < 82) ->
  exists k, shown_ids r fuel ids (map r (firstn i ids)) (text_width (map r (firstn i ids)) + String.length (r last) + 7 + String.length (r b)) i = Ok (map r (firstn k ids)) /\
    i <= k < length ids /\ (k = 1 \/ text_width (map r (firstn k ids)) + 7 + String.length (r last) < 82) /\
    exists c, nth_error ids k = Some c /\ 80 <= text_width (map r (firstn k ids)) + 7 + String.length (r last) + String.length (r c).
Proof.
  intros Hr Hsum Hn Hlast. induction fuel as [|fuel IH]; intros i b Hf Hi Hb Hw; [lia|]. cbn [shown_ids].
  destruct (Nat.ltb_spec (text_width (map r (firstn i ids)) + String.length (r last) + 7 + String.length (r b)) 80) as [Hlt|Hge].
  - unfold at_id at 1. rewrite Hb. cbn [bind].
    assert (Hi1 : i + 1 < length ids).
    { destruct (Nat.eq_dec (i + 1) (length ids)) as [E|]; [|lia]. exfalso.
      assert (Ei : i = length ids - 1) by lia. rewrite Ei, Hlast in Hb. injection Hb as ->.
      pose proof (width_all r (firstn i ids) Hr) as HW. assert (EA : ids = firstn i ids ++ [b]).
      { rewrite <- (firstn_snoc ids i b) by (rewrite Ei; exact Hlast). rewrite E. now rewrite firstn_all. }
      assert (ES : list_sum (map String.length ids) = list_sum (map String.length (firstn i ids)) + String.length b).
      { transitivity (list_sum (map String.length (firstn i ids ++ [b]))); [now rewrite <- EA|]. rewrite map_app, list_sum_app. cbn. lia. }
      pose proof (Hr b). unfold text_width in Hlt. rewrite map_length in Hlt. lia. }
    destruct (at_id_some ids (i + 1) Hi1) as (c & Ec & Hc). rewrite Ec. cbn [bind].
    assert (EF : map r (firstn i ids) ++ [r b] = map r (firstn (i + 1) ids)) by (rewrite (firstn_snoc ids i b Hb), map_app; reflexivity).
    rewrite EF.
    assert (EW : text_width (map r (firstn (i + 1) ids)) = text_width (map r (firstn i ids)) + String.length (r b) + 2).
    { rewrite <- EF. apply text_width_app. destruct ids; [cbn in Hn; lia|]. destruct i; [lia|]. cbn. discriminate. }
    replace (text_width (map r (firstn i ids)) + String.length (r last) + 7 + String.length (r b) + (String.length (r c) + 2))
      with (text_width (map r (firstn (i + 1) ids)) + String.length (r last) + 7 + String.length (r c)) by lia.
    destruct (IH (i + 1) c) as (k & E & K1 & K2 & K3); [lia|lia|exact Hc|right; lia|]. exists k. split; [exact E|]. split; [lia|]. auto.
  - exists i. split; [reflexivity|]. split; [lia|]. split; [exact Hw|]. exists b. split; [exact Hb|]. lia.
Qed.

Theorem repr_shortened r ids : (forall s, String.length s + 2 <= String.length (r s)) -> 80 < list_sum (map String.length ids) -> 2 <= length ids ->
  exists k last next, 1 <= k < length ids /\ nth_error ids (length ids - 1) = Some last /\ nth_error ids k = Some next /\
    repr_ids r ids = Ok (joined (map r (firstn k ids)) ++ ", ..., " ++ r (r last))%string /\
    (k = 1 \/ text_width (map r (firstn k ids)) + 7 + String.length (r last) < 82) /\
    80 <= text_width (map r (firstn k ids)) + 7 + String.length (r last) + String.length (r next).
Proof.
  intros Hr Hs Hn. destruct (at_id_some ids (length ids - 1)) as (last & El & Hl); [lia|].
  destruct (at_id_some ids 1) as (b & Eb & Hb); [lia|]. destruct (at_id_some ids 0) as (a & Ea & Ha); [lia|].
  destruct (shown_ids_ok r ids last Hr Hs Hn Hl (length ids) 1 b) as (k & E & K1 & K2 & next & K3 & K4); [lia|lia|exact Hb|now left|].
  exists k, last, next. split; [lia|]. split; [exact Hl|]. split; [exact K3|]. split; [|split; [exact K2|exact K4]].
  unfold repr_ids. rewrite (proj2 (Nat.ltb_lt _ _) Hs), El. cbn [bind]. rewrite Ea, Eb. cbn [bind].
  destruct ids as [|a0 ids0]; [discriminate Ha|]. cbn in Ha. injection Ha as ->.
  replace (text_width (map r (firstn 1 (a :: ids0)))) with (String.length (r a)) in E.
  - change (map r (firstn 1 (a :: ids0))) with [r a] in E. rewrite E. reflexivity.
  - unfold text_width. cbn. lia.
Qed.

Theorem repr_full r ids : list_sum (map String.length ids) <= 80 -> repr_ids r ids = Ok (repr_list r ids).
Proof. intros H. unfold repr_ids. now rewrite (proj2 (Nat.ltb_ge _ _) H). Qed.

Theorem repr_single r a : 80 < String.length a -> repr_ids r [a] = Err IndexError.
Proof. intros H. unfold repr_ids. replace (80 <? list_sum (map String.length [a])) with true by (cbn [map list_sum fold_right]; lia). reflexivity. Qed.

Theorem repr_fails_iff r ids : (forall s, String.length s + 2 <= String.length (r s)) ->
  (exists e, repr_ids r ids = Err e) <-> exists a, ids = [a] /\ 80 < String.length a.
Proof.
  intros Hr. split.
  - intros (e & E). destruct (le_lt_dec (list_sum (map String.length ids)) 80) as [Hs|Hs]; [rewrite repr_full in E by exact Hs; discriminate|].
    destruct ids as [|a [|b l]]; [cbn in Hs; lia| |].
    + exists a. split; [reflexivity|]. cbn in Hs. lia.
    + destruct (repr_shortened r (a :: b :: l) Hr Hs) as (k & last & next & _ & _ & _ & H & _); [cbn; lia|]. congruence.
  - intros (a & -> & H). exists IndexError. now apply repr_single.
Qed.

Lemma length_append (a b : string) : String.length (a ++ b)%string = String.length a + String.length b.
Proof. induction a as [|c a IH]; cbn; [reflexivity|]. now rewrite IH. Qed.

Lemma joined_width l : String.length (joined l) = text_width l.
Proof.
  unfold joined, text_width. induction l as [|a l IH]; [reflexivity|]. destruct l as [|b l]; [cbn; lia|].
  change (String.concat ", " (a :: b :: l)) with (a ++ ", " ++ String.concat ", " (b :: l))%string. rewrite !length_append, IH.
  cbn [String.length map list_sum fold_right length]. lia.
Qed.

(** Proofs about make_streams_synchronous. *)

From Coq Require Import String List ZArith Bool Lia Permutation.
From Coq Require Import ZifyBool.
From Verif Require Import Py Meta MetaSpec MetaProofs Pad Data DataSpec DataProofs.
Import ListNotations.
Open Scope nat_scope.

Section Sync.
Context {V : Type}.
Implicit Types (b : buffers_t V) (f i : string) (q l : list (sample V)) (s : sample V) (rest D out : list (list (sample V))).

(* ---------- buffers ---------- *)

Fixpoint cnt b : nat := match b with [] => 0 | (_, q) :: t => length q + cnt t end.

Lemma bget_bset b i q f : bget (bset b i q) f = if String.eqb i f then q else bget b f.
Proof.
  induction b as [|[j p] t IH]; cbn [bset bget]; [reflexivity|]. destruct (String.eqb_spec j i) as [->|Hj]; cbn [bget].
  - destruct (String.eqb i f); reflexivity.
  - rewrite IH. destruct (String.eqb_spec j f) as [->|]; [|reflexivity]. destruct (String.eqb_spec i f); [congruence|reflexivity].
Qed.

Lemma bset_keys b i q x : In x (map fst (bset b i q)) <-> x = i \/ In x (map fst b).
Proof.
  induction b as [|[j p] t IH]; cbn [bset map]; [cbn; intuition|]. destruct (String.eqb_spec j i) as [->|Hj]; cbn [map fst In].
  - intuition.
  - rewrite IH. intuition.
Qed.

Lemma bset_NoDup b i q : NoDup (map fst b) -> NoDup (map fst (bset b i q)).
Proof.
  induction b as [|[j p] t IH]; cbn [bset map]; intros H; [repeat constructor; auto|]. inversion H as [|? ? H1 H2]; subst.
  destruct (String.eqb_spec j i) as [->|Hj]; cbn [map fst]; [auto|]. constructor; [|auto]. rewrite bset_keys. intros [E|E]; [cbn in E; congruence|auto].
Qed.

Lemma bset_cnt b i q : cnt (bset b i q) + length (bget b i) = cnt b + length q.
Proof.
  induction b as [|[j p] t IH]; cbn [bset bget cnt length]; [lia|]. destruct (String.eqb_spec j i); cbn [cnt]; lia.
Qed.

Lemma of_file_cons f s l : of_file f (s :: l) = (if String.eqb (sid s) f then [s] else []) ++ of_file f l.
Proof. unfold of_file. cbn [filter]. destruct (String.eqb (sid s) f); reflexivity. Qed.

Lemma fill_batch l : forall b, (forall f, bget (fold_left bappend l b) f = bget b f ++ of_file f l) /\
  (NoDup (map fst b) -> NoDup (map fst (fold_left bappend l b))) /\ cnt (fold_left bappend l b) = cnt b + length l.
Proof.
  induction l as [|s l IH]; intros b; cbn [fold_left length].
  - split; [intros; now rewrite app_nil_r|]. split; [auto|lia].
  - destruct (IH (bappend b s)) as (H1 & H2 & H3). split; [|split].
    + intros f. rewrite H1, of_file_cons. unfold bappend. rewrite bget_bset. destruct (String.eqb_spec (sid s) f) as [->|]; [|reflexivity].
      rewrite <- app_assoc. reflexivity.
    + intros H. apply H2. unfold bappend. now apply bset_NoDup.
    + rewrite H3. unfold bappend. pose proof (bset_cnt b (sid s) (bget b (sid s) ++ [s])) as E. rewrite app_length in E. cbn [length] in E. lia.
Qed.

Lemma fill_spec bs active : forall rest b, exists rest' e b', fill (gen_of rest) active b bs = Ok (gen_of rest', e, b') /\
  (e = true -> rest' = []) /\ (e = false -> continue_buffering false active b' bs = false) /\
  (forall f, bget b' f ++ of_file f (List.concat rest') = bget b f ++ of_file f (List.concat rest)) /\
  (NoDup (map fst b) -> NoDup (map fst b')) /\ cnt b' + length (List.concat rest') = cnt b + length (List.concat rest).
Proof.
  induction rest as [|l rest IH]; intros b; cbn [gen_of fill].
  - destruct (continue_buffering false active b bs) eqn:E.
    + exists [], true, b. split; [reflexivity|]. split; [auto|]. split; [discriminate|]. auto.
    + exists [], false, b. split; [reflexivity|]. split; [auto|]. auto.
  - destruct (continue_buffering false active b bs) eqn:E.
    + destruct (IH (fold_left bappend l b)) as (rest' & e & b' & H1 & H2 & H3 & H4 & H5 & H6).
      destruct (fill_batch l b) as (F1 & F2 & F3).
      exists rest', e, b'. split; [exact H1|]. split; auto. split; auto. split; [|split].
      * intros f. rewrite H4, F1. cbn [List.concat]. rewrite of_file_app, app_assoc. reflexivity.
      * auto.
      * rewrite H6, F3. cbn [List.concat]. rewrite app_length. lia.
    + exists (l :: rest), false, b. split; [reflexivity|]. split; [discriminate|]. split; [auto|]. auto.
Qed.

Lemma pop_spec : forall active b, NoDup active -> (forall i, In i active -> bget b i <> []) ->
  exists l b2, pop_all active b = (l, b2) /\ Forall2 (fun i s => exists q, bget b i = s :: q /\ bget b2 i = q) active l /\
    (forall f, ~ In f active -> bget b2 f = bget b f) /\ (NoDup (map fst b) -> NoDup (map fst b2)) /\ cnt b2 + length l = cnt b.
Proof.
  induction active as [|i t IH]; intros b Hn Hne.
  - exists [], b. split; [reflexivity|]. split; [constructor|]. split; [auto|]. split; [auto|]. cbn [length]. lia.
  - inversion Hn as [|? ? Hi Hn']; subst. cbn [pop_all]. destruct (bget b i) as [|s q] eqn:Eb; [exfalso; apply (Hne i); [left; auto|auto]|].
    assert (Hg : forall j, In j t -> bget (bset b i q) j = bget b j).
    { intros j Hj. rewrite bget_bset. destruct (String.eqb_spec i j) as [->|]; [contradiction|reflexivity]. }
    destruct (IH (bset b i q) Hn') as (l & b2 & E & H1 & H2 & H3 & H4).
    { intros j Hj. rewrite Hg by auto. apply Hne. right; auto. }
    rewrite E. exists (s :: l), b2. split; [reflexivity|]. split; [|split; [|split]].
    + constructor.
      * exists q. split; auto. rewrite H2 by auto. rewrite bget_bset, String.eqb_refl. reflexivity.
      * clear - H1 Hg. induction H1 as [|j s t l Hj Hr IHr]; constructor.
        -- rewrite Hg in Hj by (left; auto). exact Hj.
        -- apply IHr. intros; apply Hg; right; auto.
    + intros f Hf. rewrite H2 by (intros G; apply Hf; right; auto). rewrite bget_bset.
      destruct (String.eqb_spec i f) as [->|]; [exfalso; apply Hf; left; auto|reflexivity].
    + intros Hk. apply H3. now apply bset_NoDup.
    + pose proof (bset_cnt b i q) as Q. rewrite Eb in Q. cbn [length] in *. lia.
Qed.

Lemma bget_in b f : bget b f <> [] -> In (f, bget b f) b.
Proof.
  induction b as [|[j p] t IH]; cbn [bget]; [congruence|]. destruct (String.eqb_spec j f) as [->|]; [left; auto|]. intros H. right. auto.
Qed.

Lemma in_bget b f q : NoDup (map fst b) -> In (f, q) b -> bget b f = q.
Proof.
  induction b as [|[j p] t IH]; intros Hn H; [destruct H|]. cbn [map] in Hn. inversion Hn as [|? ? H1 H2]; subst. cbn [bget].
  destruct H as [H|H].
  - inversion H; subst. now rewrite String.eqb_refl.
  - destruct (String.eqb_spec j f) as [->|]; [|auto]. exfalso. apply H1. apply in_map_iff. exists (f, q). auto.
Qed.

Lemma bget_nokey b f : ~ In f (map fst b) -> bget b f = [].
Proof. induction b as [|[j p] t IH]; cbn [bget map]; [auto|]. intros H. destruct (String.eqb_spec j f) as [->|]; [exfalso; apply H; left; auto|]. apply IH. intros G; apply H; right; auto. Qed.

Lemma NoDup_map_filter (P : string * list (sample V) -> bool) b : NoDup (map fst b) -> NoDup (map fst (filter P b)).
Proof.
  induction b as [|p t IH]; cbn [filter map]; [auto|]. intros H. inversion H as [|? ? H1 H2]; subst. destruct (P p); [|auto].
  cbn [map]. constructor; auto. intros G. apply H1. apply in_map_iff in G as (x & E & Hx). apply filter_In in Hx as [Hx _].
  apply in_map_iff. eauto.
Qed.

Lemma clean_spec b : NoDup (map fst b) -> let b3 := filter (fun p => negb (is_nil (snd p))) b in
  (forall f, bget b3 f = bget b f) /\ NoDup (map fst b3) /\ cnt b3 = cnt b.
Proof.
  intros Hn b3. assert (Hn3 : NoDup (map fst b3)) by now apply NoDup_map_filter. split; [|split; auto].
  - intros f. destruct (bget b f) as [|s q] eqn:E.
    + destruct (bget b3 f) as [|s' q'] eqn:E3; [auto|]. exfalso. assert (G : In (f, bget b3 f) b3) by (apply bget_in; congruence).
      apply filter_In in G as [G _]. apply (in_bget b f _ Hn) in G. congruence.
    + apply in_bget; auto. apply filter_In. split; [|reflexivity]. rewrite <- E. apply bget_in. congruence.
  - clear. unfold b3. clear b3. induction b as [|[j q] t IH]; [reflexivity|]. cbn [filter snd]. destruct q; cbn [is_nil negb cnt length]; lia.
Qed.

Lemma last_eos_nonempty q : last_eos q = true -> q <> [].
Proof. intros H ->. discriminate. Qed.

Lemma filter_all {A} (P : A -> bool) (l : list A) : length l <= length (filter P l) -> forall x, In x l -> P x = true.
Proof.
  induction l as [|a l IH]; intros H x Hx; [destruct Hx|]. cbn [filter] in H.
  assert (G : length (filter P l) <= length l) by (clear; induction l; simpl; [lia|]; destruct (P a); simpl; lia).
  destruct (P a) eqn:E; cbn [length] in H; [|lia]. destruct Hx as [<-|Hx]; [auto|]. apply IH; auto. lia.
Qed.

Lemma filter_mono {A} (P Q : A -> bool) (l : list A) : (forall x, In x l -> P x = true -> Q x = true) -> length (filter P l) <= length (filter Q l).
Proof.
  induction l as [|a l IH]; intros H; [cbn; lia|]. cbn [filter]. specialize (IH (fun x Hx => H x (or_intror Hx))).
  destruct (P a) eqn:EP; [rewrite (H a (or_introl eq_refl) EP); cbn [length]; lia|]. destruct (Q a); cbn [length]; lia.
Qed.

(* ---------- the invariant ---------- *)

Section Run.
Context (T : string -> list (sample V)) (T_ok : forall f, T f = [] \/ complete_file (T f))
  (T_own : forall f s, In s (T f) -> sid s = f) (bs : nat) (bs_pos : 1 <= bs).

Record inv (rest : list (list (sample V))) (e : bool) (active : list string) b (D : list (list (sample V))) : Prop := mkInv {
  i_total : forall f, of_file f (List.concat D) ++ bget b f ++ of_file f (List.concat rest) = T f;
  i_empty : e = true -> rest = [];
  i_keys : NoDup (map fst b);
  i_active : NoDup active;
  i_len : length active <= bs;
  i_open : forall f, In f active -> of_file f (List.concat D) <> T f;
  i_closed : forall f, ~ In f active -> of_file f (List.concat D) = [] \/ of_file f (List.concat D) = T f;
  i_phase : (forall f, In f active -> of_file f (List.concat D) = []) \/ (forall f, In f active -> of_file f (List.concat D) <> []);
  i_full : active <> [] -> (forall f, In f active -> of_file f (List.concat D) = []) ->
           length active = bs \/ forall f, T f <> [] -> In f active \/ of_file f (List.concat D) <> []
}.

Lemma all_ended_ok D : (forall f, of_file f (List.concat D) = [] \/ of_file f (List.concat D) = T f) -> all_ended (List.concat D).
Proof.
  intros H s Hs. assert (Hf : In s (of_file (sid s) (List.concat D))) by (apply filter_In; split; auto; apply String.eqb_refl).
  destruct (H (sid s)) as [E|E]; [rewrite E in Hf; destruct Hf|]. rewrite E in Hf.
  destruct (T_ok (sid s)) as [E2|[Hne Hc]]; [rewrite E2 in Hf; destruct Hf|].
  destruct (nth_error (T (sid s)) (length (T (sid s)) - 1)) as [x|] eqn:Ex.
  - exists x. destruct (Hc _ _ Ex) as [_ He]. apply nth_error_In in Ex. split.
    + assert (G : In x (of_file (sid s) (List.concat D))) by (rewrite E; auto). apply filter_In in G. tauto.
    + split; [apply T_own; auto|]. rewrite He. apply Nat.eqb_eq. destruct (T (sid s)); [congruence|cbn [length]; lia].
  - apply nth_error_None in Ex. destruct (T (sid s)); [congruence|cbn [length] in Ex; lia].
Qed.

Definition batch_fine (l : list (sample V)) : Prop := 1 <= length l <= bs /\ NoDup (map sid l).

Definition groups_after D out : Prop :=
  forall k l, nth_error out k = Some l ->
    (Forall (fun s => ssos s = true) l /\ all_ended (List.concat D ++ List.concat (firstn k out))) \/ Forall (fun s => ssos s = false) l.

Definition full_after D out : Prop :=
  forall k l, nth_error out k = Some l -> Forall (fun s => ssos s = true) l ->
    length l = bs \/ forall f, T f <> [] -> of_file f (List.concat (D ++ firstn (S k) out)) <> [].

(** A sample at the front of a buffer. *)
Lemma front rest e active b D f s q : inv rest e active b D -> bget b f = s :: q ->
  sid s = f /\ ssos s = is_nil (of_file f (List.concat D)) /\
  (seos s = true <-> of_file f (List.concat D) ++ [s] = T f).
Proof.
  intros I Hb. pose proof (i_total _ _ _ _ _ I f) as Ht. rewrite Hb in Ht. cbn [app] in Ht.
  set (P := of_file f (List.concat D)) in *. set (R := q ++ of_file f (List.concat rest)) in *.
  assert (Hn : nth_error (T f) (length P) = Some s) by (rewrite <- Ht, nth_error_app2, Nat.sub_diag by lia; reflexivity).
  split; [apply T_own; eapply nth_error_In; eauto|].
  destruct (T_ok f) as [E|[_ Hc]]; [rewrite E in Hn; destruct (length P); discriminate|].
  destruct (Hc _ _ Hn) as [H1 H2]. split; [rewrite H1; destruct P; reflexivity|]. rewrite H2, <- Ht, app_length. cbn [length]. rewrite Nat.eqb_eq.
  split; intros E.
  - assert (length R = 0) by lia. destruct R; [reflexivity|discriminate].
  - apply app_inv_head in E. inversion E as [E']. cbn [length]. lia.
Qed.

Lemma sync_run : forall n rest e active b D,
  2 * (cnt b + length (List.concat rest)) + (if is_nil active then 1 else 0) < n -> inv rest e active b D ->
  exists out, (forall fuel, n <= fuel -> sync_loop fuel (gen_of rest) e active b bs = Some (gen_of out)) /\
    (forall f, of_file f (List.concat (D ++ out)) = T f) /\ Forall batch_fine out /\ groups_after D out /\ full_after D out.
Proof.
  induction n as [|n IH]; intros rest e active b D Hm I; [lia|].
  (* the fill *)
  assert (Hfill : exists rest1 e1 b1, (if e then Ok (gen_of rest, true, b) else fill (gen_of rest) active b bs) = Ok (gen_of rest1, e1, b1) /\
            inv rest1 e1 active b1 D /\ (e1 = false -> continue_buffering false active b1 bs = false) /\
            cnt b1 + length (List.concat rest1) = cnt b + length (List.concat rest)).
  { destruct e.
    - exists rest, true, b. split; [reflexivity|]. split; [auto|]. split; [discriminate|auto].
    - destruct (fill_spec bs active rest b) as (rest1 & e1 & b1 & E & H1 & H2 & H3 & H4 & H5). exists rest1, e1, b1.
      split; [exact E|]. split; [|auto]. destruct I. constructor; auto. intros f. rewrite <- i_total0. f_equal. apply H3. }
  destruct Hfill as (rest1 & e1 & b1 & Ef & I1 & Hcont & Hc1).
  assert (Hbuf : forall i, In i active -> bget b1 i <> []).
  { intros i Hi. destruct e1.
    - pose proof (i_total _ _ _ _ _ I1 i) as Ht. rewrite (i_empty _ _ _ _ _ I1 eq_refl) in Ht. cbn [List.concat of_file filter] in Ht.
      rewrite app_nil_r in Ht. intros E. rewrite E, app_nil_r in Ht. apply (i_open _ _ _ _ _ I1 i Hi). auto.
    - specialize (Hcont eq_refl). unfold continue_buffering in Hcont. apply orb_false_iff in Hcont as [Hc _].
      apply last_eos_nonempty. apply (filter_all (fun i => last_eos (bget b1 i)) active); auto. unfold zlen in Hc. lia. }
  destruct (pop_spec active b1 (i_active _ _ _ _ _ I1) Hbuf) as (l & b2 & Ep & Hl & Hother & Hk2 & Hc2).
  assert (Hll : length l = length active) by (clear - Hl; induction Hl; simpl; auto).
  destruct active as [|a active'] eqn:Eact.
  - (* a new group *)
    inversion Hl; subst l. cbn [pop_all] in Ep. inversion Ep; subst b2. clear Ep Hl Hother Hk2 Hc2 Hll.
    set (active1 := firstn bs (map fst (filter (fun p => head_sos (snd p)) b1))).
    set (b3 := filter (fun p => negb (is_nil (snd p))) b1).
    destruct (clean_spec b1 (i_keys _ _ _ _ _ I1)) as (C1 & C2 & C3). fold b3 in C1, C2, C3.
    assert (Hcl : forall f, of_file f (List.concat D) = [] \/ of_file f (List.concat D) = T f) by (intros f; apply (i_closed _ _ _ _ _ I1); auto).
    (* candidates *)
    assert (Hcand : forall f, bget b1 f <> [] -> In f (map fst (filter (fun p => head_sos (snd p)) b1)) /\ of_file f (List.concat D) = []).
    { intros f Hf. destruct (bget b1 f) as [|s q] eqn:Es; [congruence|]. destruct (front _ _ _ _ _ f s q I1 Es) as (Hs1 & Hs2 & _).
      destruct (Hcl f) as [E|E].
      - split; auto. apply in_map_iff. exists (f, s :: q). split; auto. apply filter_In. split; [|cbn; rewrite Hs2, E; reflexivity].
        rewrite <- Es. apply bget_in. congruence.
      - exfalso. pose proof (i_total _ _ _ _ _ I1 f) as Ht. rewrite E, Es in Ht.
        apply (f_equal (@length _)) in Ht. rewrite !app_length in Ht. cbn [length] in Ht. lia. }
    destruct (e1 && is_nil active1) eqn:Estop.
    + (* finished *)
      apply andb_true_iff in Estop as [He1 Hnil]. subst e1.
      exists []. split; [|split; [|split]].
      * intros fuel Hfuel. destruct fuel as [|fuel]; [lia|]. cbn [sync_loop]. rewrite Ef. cbn [pop_all is_nil negb].
        fold active1. rewrite Hnil. reflexivity.
      * intros f. rewrite app_nil_r. destruct (bget b1 f) as [|s q] eqn:Es.
        -- pose proof (i_total _ _ _ _ _ I1 f) as Ht. rewrite Es, (i_empty _ _ _ _ _ I1 eq_refl) in Ht. cbn in Ht. now rewrite app_nil_r in Ht.
        -- exfalso. destruct (Hcand f) as [G _]; [congruence|]. unfold active1 in Hnil.
           destruct (map fst (filter (fun p => head_sos (snd p)) b1)); [destruct G|]. destruct bs; [lia|discriminate].
      * constructor.
      * split; intros k l0 Hk; destruct k; discriminate.
    + assert (Hne1 : active1 <> []).
      { intros E. rewrite E in Estop. cbn [is_nil] in Estop. rewrite andb_true_r in Estop. subst e1. specialize (Hcont eq_refl).
        unfold continue_buffering in Hcont. apply orb_false_iff in Hcont as [_ Hc]. cbn [zlen length] in Hc.
        destruct (filter (fun p => negb (mem (fst p) []) && last_eos (snd p)) b1) as [|[f q] t] eqn:Efl; [unfold zlen in Hc; cbn [length] in Hc; lia|].
        assert (G : In (f, q) (filter (fun p => negb (mem (fst p) []) && last_eos (snd p)) b1)) by (rewrite Efl; left; auto).
        apply filter_In in G as [G1 G2]. cbn [mem existsb negb andb snd] in G2. pose proof (in_bget _ _ _ (i_keys _ _ _ _ _ I1) G1) as Gq.
        destruct (Hcand f) as [G _]; [rewrite Gq; now apply last_eos_nonempty|]. unfold active1 in E.
        destruct (map fst (filter (fun p => head_sos (snd p)) b1)); [destruct G|]. destruct bs; [lia|discriminate]. }
      assert (Hin1 : forall f, In f active1 -> bget b1 f <> []).
      { intros f Hf. unfold active1 in Hf.
        assert (G : In f (map fst (filter (fun p => head_sos (snd p)) b1))).
        { revert Hf. generalize (map fst (filter (fun p => head_sos (snd p)) b1)). clear. induction bs; intros [|x L]; cbn [firstn]; intros H; try solve [destruct H].
          destruct H as [->|H]; [left; auto|right; auto]. }
        apply in_map_iff in G as ([f' q] & E & G). cbn in E. subst f'. apply filter_In in G as [G1 G2].
        rewrite (in_bget _ _ _ (i_keys _ _ _ _ _ I1) G1). cbn [snd] in G2. destruct q; [discriminate|discriminate]. }
      assert (I3 : inv rest1 e1 active1 b3 D).
      { pose proof I1 as I1'. destruct I1' as [J1 J2 J3 J4 J5 J6 J7 J8]. constructor; auto.
        - intros f. rewrite C1. apply J1.
        - unfold active1. assert (N : NoDup (map fst (filter (fun p => head_sos (snd p)) b1))) by now apply NoDup_map_filter.
          revert N. generalize (map fst (filter (fun p => head_sos (snd p)) b1)). clear. intros L N.
          rewrite <- (firstn_skipn bs L) in N. revert N. generalize (firstn bs L) (skipn bs L). clear. intros x y. induction x as [|a x IHx]; cbn [app]; [constructor|].
          intros N. inversion N as [|? ? N1 N2]; subst. constructor; [|auto]. intros G. apply N1. apply in_or_app. auto.
        - unfold active1. rewrite firstn_length. lia.
        - intros f Hf E. apply Hin1 in Hf. specialize (J1 f). rewrite E in J1. apply (f_equal (@length _)) in J1. rewrite !app_length in J1.
          destruct (bget b1 f); [congruence|cbn [length] in J1; lia].
        - left. intros f Hf. apply Hcand. now apply Hin1.
        - intros _ _. set (cands := map fst (filter (fun p => head_sos (snd p)) b1)) in *.
          destruct (Nat.le_gt_cases bs (length cands)) as [G|G]; [left; unfold active1; rewrite firstn_length; lia|].
          assert (Ea : active1 = cands) by (unfold active1; apply firstn_all2; lia).
          destruct e1.
          + right. intros f Hf. destruct (bget b1 f) as [|s q] eqn:Eb.
            * right. specialize (J1 f). rewrite Eb, (J2 eq_refl) in J1. cbn in J1. rewrite app_nil_r in J1. congruence.
            * left. rewrite Ea. apply Hcand. congruence.
          + exfalso. specialize (Hcont eq_refl). unfold continue_buffering in Hcont. apply orb_false_iff in Hcont as [_ Hc].
            cbn [zlen length] in Hc.
            assert (Hlen : length (filter (fun p => negb (mem (fst p) []) && last_eos (snd p)) b1) <= length cands).
            { unfold cands. rewrite map_length. apply filter_mono. intros [f q] Hp Hq. cbn [mem existsb negb andb snd] in *.
              pose proof (in_bget _ _ _ J3 Hp) as Gq. destruct (Hcand f) as [X _]; [rewrite Gq; now apply last_eos_nonempty|].
              apply in_map_iff in X as ([f' q'] & Ef' & X). cbn [fst] in Ef'. subst f'. apply filter_In in X as [X1 X2].
              pose proof (in_bget _ _ _ J3 X1). cbn [snd] in X2. congruence. }
            unfold zlen in Hc. cbn [length] in Hc. lia. }
      destruct (IH rest1 e1 active1 b3 D) as (out & O1 & O2 & O3 & O4 & O5); [|exact I3|].
      { rewrite C3. cbn [is_nil] in Hm. destruct active1; [congruence|]. cbn [is_nil]. lia. }
      exists out. split; [|auto]. intros fuel Hfuel. destruct fuel as [|fuel]; [lia|]. cbn [sync_loop]. rewrite Ef. cbn [pop_all is_nil negb].
      fold active1. rewrite Estop. fold b3. apply O1. lia.
  - (* deliver a batch *)
    rewrite <- Eact in *. assert (Hane : active <> []) by (rewrite Eact; discriminate). clear a active' Eact.
    assert (Hlne : is_nil l = false) by (destruct l; [destruct active; [congruence|discriminate]|reflexivity]).
    set (active2 := map sid (filter (fun s => negb (seos s)) l)).
    (* facts about the batch *)
    assert (Hfront : Forall2 (fun i s => sid s = i /\ bget b1 i = s :: bget b2 i /\ ssos s = is_nil (of_file i (List.concat D)) /\
                         (seos s = true <-> of_file i (List.concat D) ++ [s] = T i)) active l).
    { pose proof (fun i s q => front rest1 e1 active b1 D i s q I1) as Hfr. clear - Hl Hfr.
      induction Hl as [|i s A l (q & Hq & Hq2) Hr IHr]; constructor; auto.
      destruct (Hfr i s q Hq) as (F1 & F2 & F3). rewrite Hq2. auto. }
    assert (Hids : map sid l = active) by (clear - Hfront; induction Hfront as [|i s A l (H & _) Hr IHr]; simpl; congruence).
    assert (Hof_in : forall i, In i active -> exists s, In s l /\ of_file i l = [s] /\ sid s = i /\ bget b1 i = s :: bget b2 i /\ (seos s = true <-> of_file i (List.concat D) ++ [s] = T i)).
    { pose proof (i_active _ _ _ _ _ I1) as Hnd. clear - Hfront Hids Hnd.
      revert Hids Hnd. induction Hfront as [|i s A l (H1 & H2 & H3 & H4) Hr IHr]; intros Hids Hnd i' Hi'; [destruct Hi'|].
      cbn [map] in Hids. assert (E2 : map sid l = A) by congruence. apply NoDup_cons_iff in Hnd as [N1 N2]. destruct Hi' as [<-|Hi'].
      - exists s. split; [left; auto|]. rewrite of_file_cons, H1, String.eqb_refl. split; [|auto]. cbn [app]. f_equal.
        apply filter_none. intros x Hx. apply String.eqb_neq. intros E. apply N1. rewrite <- E2, <- E. now apply in_map.
      - destruct (IHr E2 N2 i' Hi') as (x & X1 & X2 & X3). exists x. split; [right; auto|]. split; [|auto].
        rewrite of_file_cons. destruct (String.eqb_spec (sid s) i') as [E|E]; [exfalso; apply N1; congruence|]. auto. }
    assert (Hof_out : forall f, ~ In f active -> of_file f l = []).
    { intros f Hf. apply filter_none. intros x Hx. apply String.eqb_neq. intros E. apply Hf. rewrite <- Hids, <- E. now apply in_map. }
    assert (Hact2 : forall f, In f active2 <-> In f active /\ exists s, of_file f l = [s] /\ seos s = false).
    { intros f. unfold active2. rewrite in_map_iff. split.
      - intros (s & Es & Hs). apply filter_In in Hs as [Hs1 Hs2].
        assert (Hfa : In f active) by (rewrite <- Hids, <- Es; now apply in_map). split; auto.
        destruct (Hof_in f Hfa) as (s' & _ & X2 & _). exists s'. split; auto.
        assert (G : In s (of_file f l)) by (apply filter_In; split; auto; apply String.eqb_eq; auto).
        rewrite X2 in G. destruct G as [->|[]]. destruct (seos s); [discriminate|auto].
      - intros (_ & s & Es & Hs). assert (G : In s (of_file f l)) by (rewrite Es; left; auto). apply filter_In in G as [G1 G2].
        exists s. split; [now apply String.eqb_eq|]. apply filter_In. split; auto. rewrite Hs. reflexivity. }
    assert (HD : forall f, of_file f (List.concat (D ++ [l])) = of_file f (List.concat D) ++ of_file f l).
    { intros f. rewrite concat_app, of_file_app. cbn [List.concat]. rewrite app_nil_r. reflexivity. }
    assert (I2 : inv rest1 e1 active2 b2 (D ++ [l])).
    { pose proof I1 as I1'. destruct I1' as [J1 J2 J3 J4 J5 J6 J7 J8]. constructor; auto.
      - intros f. rewrite HD, <- J1. destruct (in_dec String.string_dec f active) as [Hf|Hf].
        + destruct (Hof_in f Hf) as (s & _ & -> & _ & -> & _). rewrite <- app_assoc. reflexivity.
        + rewrite (Hof_out f Hf), (Hother f Hf), app_nil_r. reflexivity.
      - unfold active2. assert (N : NoDup (map sid l)) by (rewrite Hids; auto). clear - N. induction l as [|x l IHl]; cbn [filter map]; [constructor|].
        cbn [map] in N. inversion N as [|? ? N1 N2]; subst. destruct (negb (seos x)); cbn [map]; [|auto]. constructor; [|auto].
        intros G. apply N1. apply in_map_iff in G as (y & E & Hy). apply filter_In in Hy as [Hy _]. apply in_map_iff. eauto.
      - unfold active2. rewrite map_length. apply Nat.le_trans with (length l); [|lia]. clear. induction l as [|x l IHl]; cbn [filter length]; [lia|].
        destruct (negb (seos x)); cbn [length]; lia.
      - intros f Hf. apply Hact2 in Hf as (Hf & s & Es & He). destruct (Hof_in f Hf) as (s' & _ & Es' & _ & _ & X). rewrite Es in Es'. inversion Es'; subst s'.
        rewrite HD, Es. intros E. apply X in E. congruence.
      - intros f Hf. rewrite HD. destruct (in_dec String.string_dec f active) as [Ha|Ha].
        + destruct (Hof_in f Ha) as (s & _ & Es & _ & _ & X). rewrite Es. right. apply X. destruct (seos s) eqn:He; auto. exfalso. apply Hf. apply Hact2. eauto.
        + rewrite (Hof_out f Ha), app_nil_r. auto.
      - right. intros f Hf. apply Hact2 in Hf as (Hf & s & Es & He). rewrite HD, Es. destruct (of_file f (List.concat D)); discriminate.
      - intros Hne2 Hz. exfalso. destruct active2 as [|f t2] eqn:Ea2; [congruence|]. rewrite <- Ea2 in *.
        assert (Hf : In f active2) by (rewrite Ea2; now left). specialize (Hz f Hf). apply Hact2 in Hf as (Hf & s & Es & He).
        rewrite HD, Es in Hz. destruct (of_file f (List.concat D)); discriminate. }
    destruct (IH rest1 e1 active2 b2 (D ++ [l])) as (out & O1 & O2 & O3 & O4 & O5); [|exact I2|].
    { assert (1 <= length l) by (destruct l; [discriminate|cbn [length]; lia]). destruct (is_nil active), (is_nil active2); lia. }
    exists (l :: out). split; [|split; [|split; [|split]]].
    + intros fuel Hfuel. destruct fuel as [|fuel]; [lia|]. cbn [sync_loop]. rewrite Ef, Ep, Hlne. cbn [negb]. fold active2. rewrite O1 by lia. reflexivity.
    + intros f. rewrite <- O2. rewrite <- app_assoc. reflexivity.
    + constructor; auto. split; [|rewrite Hids; apply (i_active _ _ _ _ _ I1)]. pose proof (i_len _ _ _ _ _ I1).
      destruct l; [discriminate|]. cbn [length] in *. lia.
    + intros k l0 Hk. destruct k as [|k].
      * cbn [nth_error] in Hk. inversion Hk; subst l0. cbn [firstn List.concat]. rewrite app_nil_r.
        destruct (i_phase _ _ _ _ _ I1) as [Hp|Hp].
        -- left. split.
           ++ clear - Hfront Hp. induction Hfront as [|i s A l (H1 & H2 & H3 & H4) Hr IHr]; constructor.
              ** rewrite H3, Hp by (left; auto). reflexivity.
              ** apply IHr. intros; apply Hp; right; auto.
           ++ apply all_ended_ok. intros f. destruct (in_dec String.string_dec f active) as [Hf|Hf]; [left; auto|apply (i_closed _ _ _ _ _ I1); auto].
        -- right. clear - Hfront Hp. induction Hfront as [|i s A l (H1 & H2 & H3 & H4) Hr IHr]; constructor.
           ++ rewrite H3. specialize (Hp i (or_introl eq_refl)). destruct (of_file i (List.concat D)); [congruence|reflexivity].
           ++ apply IHr. intros; apply Hp; right; auto.
      * cbn [nth_error] in Hk. destruct (O4 k l0 Hk) as [[G1 G2]|G]; [left|right; auto]. split; auto.
        cbn [firstn List.concat]. rewrite app_assoc. rewrite concat_app in G2. cbn [List.concat] in G2. rewrite app_nil_r in G2. exact G2.
    + intros k l0 Hk Hs. destruct k as [|k].
      * cbn [nth_error] in Hk. inversion Hk; subst l0. cbn [firstn]. rewrite Hll.
        destruct (i_full _ _ _ _ _ I1 Hane) as [G|G].
        -- intros f Hf. clear - Hfront Hs Hf. induction Hfront as [|i s A l (H1 & H2 & H3 & H4) Hr IHr]; [destruct Hf|].
           inversion Hs as [|? ? S1 S2]; subst. destruct Hf as [<-|Hf]; [|auto]. rewrite S1 in H3.
           destruct (of_file (sid s) (List.concat D)); [reflexivity|discriminate].
        -- left. exact G.
        -- right. intros f Hf. rewrite HD. destruct (G f Hf) as [X|X].
           ++ destruct (Hof_in f X) as (s & _ & -> & _). destruct (of_file f (List.concat D)); discriminate.
           ++ destruct (of_file f (List.concat D)); [congruence|discriminate].
      * cbn [nth_error] in Hk. destruct (O5 k l0 Hk Hs) as [G|G]; [left; exact G|right]. intros f Hf. specialize (G f Hf).
        rewrite <- app_assoc in G. exact G.
Qed.

End Run.

Lemma init_eq : forall l b, NoDup (map sid l) -> (forall s, In s l -> bget b (sid s) = []) ->
  fold_left (fun b s => bset b (sid s) [s]) l b = fold_left bappend l b.
Proof.
  induction l as [|s l IH]; intros b Hn Hb; [reflexivity|]. cbn [fold_left map] in *. inversion Hn as [|? ? H1 H2]; subst.
  unfold bappend at 2. rewrite (Hb s) by (left; auto). cbn [app]. apply IH; auto. intros x Hx. rewrite bget_bset.
  destruct (String.eqb_spec (sid s) (sid x)) as [E|]; [exfalso; apply H1; rewrite E; now apply in_map|]. apply Hb. right; auto.
Qed.

Lemma one_each l : (forall f, length (of_file f l) <= 1) -> NoDup (map sid l).
Proof.
  induction l as [|s l IH]; intros H; cbn [map]; constructor.
  - intros G. apply in_map_iff in G as (x & E & Hx). specialize (H (sid s)). rewrite of_file_cons, String.eqb_refl in H. cbn [app length] in H.
    assert (Q : In x (of_file (sid s) l)) by (apply filter_In; split; auto; now apply String.eqb_eq). destruct (of_file (sid s) l); [destruct Q|cbn [length] in H; lia].
  - apply IH. intros f. specialize (H f). rewrite of_file_cons, app_length in H. lia.
Qed.

Theorem sync_full bss l t : bss = l :: t -> well_formed bss ->
  exists n out, (forall fuel, n <= fuel -> make_streams_synchronous fuel (gen_of bss) = Some (gen_of out)) /\
    (forall f, of_file f (List.concat out) = of_file f (List.concat bss)) /\
    Forall (fun c : list (sample V) => 1 <= length c <= length l /\ NoDup (map sid c)) out /\ in_groups out /\ full_groups (length l) out.
Proof.
  intros -> ((l' & t' & E & Hne & Hsos) & Hc). inversion E; subst l' t'. clear E.
  set (T := fun f => of_file f (List.concat (l :: t))).
  assert (Town : forall f s, In s (T f) -> sid s = f) by (intros f s Hs; apply filter_In in Hs as [_ Hs]; now apply String.eqb_eq).
  assert (Hone : forall f, length (of_file f l) <= 1).
  { intros f. destruct (of_file f l) as [|x [|y q]] eqn:Ef; cbn [length]; try lia. exfalso.
    destruct (Hc f) as [G|[_ G]].
    - cbn [List.concat] in G. rewrite of_file_app in G. apply app_eq_nil in G as [G _]. congruence.
    - assert (G0 : nth_error (of_file f (List.concat (l :: t))) 1 = Some y) by (cbn [List.concat]; rewrite of_file_app, Ef; reflexivity).
      destruct (G 1 y G0) as [G1 _]. cbn in G1.
      assert (Q : In y (of_file f l)) by (rewrite Ef; right; left; auto). apply filter_In in Q as [Q _]. rewrite Forall_forall in Hsos. rewrite (Hsos y Q) in G1. discriminate. }
  pose proof (one_each l Hone) as Hnd.
  destruct (fill_batch l []) as (F1 & F2 & F3).
  assert (Hinit : fold_left (fun b s => bset b (sid s) [s]) l [] = fold_left bappend l []) by (apply init_eq; auto).
  assert (I : inv T (length l) t false (map sid l) (fold_left bappend l []) []).
  { constructor; auto.
    - intros f. cbn [List.concat of_file filter app]. rewrite F1. cbn [bget app]. unfold T. cbn [List.concat]. now rewrite of_file_app.
    - discriminate.
    - apply F2. constructor.
    - now rewrite map_length.
    - intros f Hf E. apply in_map_iff in Hf as (s & Es & Hs). assert (G : In s (T f)); [|rewrite <- E in G; destruct G].
      apply filter_In. split; [cbn [List.concat]; apply in_or_app; auto|now apply String.eqb_eq].
    - intros _ _. left. now rewrite map_length. }
  assert (Hbs : 1 <= length l) by (destruct l; [congruence|cbn [length]; lia]).
  destruct (sync_run T Hc Town (length l) Hbs _ t false (map sid l) _ [] (Nat.lt_succ_diag_r _) I) as (out & O1 & O2 & O3 & O4 & O5).
  eexists. exists out. split; [|split; [|split; [|split]]].
  - intros fuel Hfuel. cbn [gen_of make_streams_synchronous]. rewrite Hinit. apply O1. exact Hfuel.
  - exact O2.
  - exact O3.
  - exact O4.
  - intros k b Hk Hs. destruct (O5 k b Hk Hs) as [G|G]; [left; exact G|right]. intros s Hin. cbn [app] in G.
    assert (G1 : of_file (sid s) (List.concat (firstn (S k) out)) <> []).
    { apply G. rewrite <- O2. cbn [app]. intros E. assert (X : In s (of_file (sid s) (List.concat out))) by (apply filter_In; split; [exact Hin|apply String.eqb_refl]).
      rewrite E in X. destruct X. }
    destruct (of_file (sid s) (List.concat (firstn (S k) out))) as [|x q] eqn:Ex; [congruence|].
    assert (X : In x (of_file (sid s) (List.concat (firstn (S k) out)))) by (rewrite Ex; now left). apply filter_In in X as [X1 X2].
    apply String.eqb_eq in X2. rewrite <- X2. now apply in_map.
Qed.

Theorem sync_spec bss l t : bss = l :: t -> well_formed bss ->
  exists n out, (forall fuel, n <= fuel -> make_streams_synchronous fuel (gen_of bss) = Some (gen_of out)) /\
    (forall f, of_file f (List.concat out) = of_file f (List.concat bss)) /\
    Forall (fun c : list (sample V) => 1 <= length c <= length l /\ NoDup (map sid c)) out /\ in_groups out.
Proof.
  intros H1 H2. destruct (sync_full bss l t H1 H2) as (n & out & O1 & O2 & O3 & O4 & _). exists n, out. auto.
Qed.

End Sync.

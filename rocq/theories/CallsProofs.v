(** Proofs about calls of the overridden functions. *)

From Coq Require Import String List Bool Arith Lia.
From Verif Require Import Dispatch DispatchProofs CallsSpec.
Import ListNotations.
Open Scope list_scope.
Open Scope nat_scope.

(** Positions of a name. *)
Fixpoint positions (s : string) (l : list string) (i : nat) : list nat :=
  match l with [] => [] | a :: r => (if String.eqb a s then [i] else []) ++ positions s r (S i) end.
Fixpoint nats_eqb (a b : list nat) : bool :=
  match a, b with [], [] => true | x :: a', y :: b' => Nat.eqb x y && nats_eqb a' b' | _, _ => false end.
Lemma nats_eqb_eq a : forall b, nats_eqb a b = true -> a = b.
Proof.
  induction a as [|x a IH]; intros [|y b] H; cbn in H; try discriminate; [reflexivity|]. apply andb_true_iff in H as [H1 H2].
  apply Nat.eqb_eq in H1. rewrite H1, (IH b H2). reflexivity.
Qed.
Lemma positions_In s l : forall i k, In k (positions s l i) <-> exists j, k = i + j /\ nth_error l j = Some s.
Proof.
  induction l as [|a l IH]; intros i k; cbn [positions].
  - split; [intros []|]. intros (j & _ & E). destruct j; discriminate.
  - rewrite in_app_iff, IH. split.
    + intros [H|(j & -> & E)].
      * destruct (String.eqb_spec a s) as [->|]; [|destruct H]. destruct H as [<-|[]]. exists 0. split; [lia|reflexivity].
      * exists (S j). split; [lia|exact E].
    + intros ([|j] & -> & E).
      * cbn in E. injection E as ->. rewrite String.eqb_refl. left. left. lia.
      * right. exists j. split; [lia|exact E].
Qed.

Definition after (d : doc) (n : nat) : list (string * string * bool) := skipn n (d_pos d) ++ d_kw d.

Definition check (d : doc) (g : signature) (n : nat) : bool :=
  (s_star g || Nat.leb n (List.length (s_pos g)))
  && forallb (fun k => mem k (map fst (skipn n (s_pos g)) ++ map fst (s_kw g))) (map p_doc (after d n))
  && forallb (fun p => snd p || mem (fst p) (map p_doc (filter (fun q => negb (p_def q)) (after d n)))) (skipn n (s_pos g) ++ s_kw g)
  && forallb (fun p => nats_eqb (positions (p_doc p) (firstn n (map p_doc (d_pos d))) 0) (positions (p_own p) (firstn n (map fst (s_pos g))) 0)
                       && (String.eqb (p_doc p) (p_own p) || (negb (mem (p_doc p) (map p_doc (after d n))) && negb (mem (p_own p) (map p_doc (after d n))))))
             (d_pos d ++ d_kw d).

Lemma nth_skipn {A} (l : list A) : forall n i x, n <= i -> nth_error l i = Some x -> In x (skipn n l).
Proof.
  induction l as [|a l IH]; intros [|n] i x H E.
  - destruct i; discriminate.
  - destruct i; discriminate.
  - exact (nth_error_In _ _ E).
  - destruct i as [|i]; [lia|]. cbn [skipn]. apply (IH n i); [lia|exact E].
Qed.
Lemma skipn_nth {A} (l : list A) : forall n x, In x (skipn n l) -> exists i, n <= i /\ nth_error l i = Some x.
Proof.
  induction l as [|a l IH]; intros [|n] x H; cbn in H; try (destruct H; fail).
  - apply (In_nth_error (a :: l)) in H as [i Hi]. exists i. split; [lia|exact Hi].
  - destruct (IH n x H) as (i & H1 & H2). exists (S i). split; [lia|exact H2].
Qed.
Lemma nth_firstn {A} (l : list A) : forall n i, nth_error (firstn n l) i = if Nat.ltb i n then nth_error l i else None.
Proof.
  induction l as [|a l IH]; intros n i.
  - rewrite firstn_nil. destruct i; cbn [nth_error]; destruct (Nat.ltb _ _); reflexivity.
  - destruct n as [|n]; [destruct i; reflexivity|]. destruct i as [|i]; [reflexivity|]. cbn [firstn nth_error]. rewrite IH. reflexivity.
Qed.

Lemma allowed_after d n kws : allowed d n kws ->
  (forall k, In k kws -> In k (map p_doc (after d n))) /\
  (forall p, In p (after d n) -> p_def p = false -> In (p_doc p) kws).
Proof.
  intros (_ & _ & H1 & H2 & H3). unfold after. split.
  - intros k Hk. destruct (H1 k Hk) as (p & <- & [Hp|(i & Hi & Hp)]); apply in_map; apply in_app_iff; [now right|left].
    exact (nth_skipn _ _ _ _ Hi Hp).
  - intros p Hp Hd. apply in_app_iff in Hp as [Hp|Hp]; [|now apply H3]. destruct (skipn_nth _ _ _ Hp) as (i & Hi & E).
    destruct (H2 i p E Hd); [lia|assumption].
Qed.

Lemma check_understood d g n kws : check d g n = true -> allowed d n kws -> understood d g n kws.
Proof.
  intros HC HA. destruct (allowed_after d n kws HA) as [A1 A2]. unfold check in HC.
  apply andb_true_iff in HC as [HC C4]. apply andb_true_iff in HC as [HC C3]. apply andb_true_iff in HC as [C1 C2].
  rewrite forallb_forall in C2, C3, C4. split.
  - unfold accepts. rewrite C1. cbn [andb]. apply andb_true_intro. split; apply forallb_forall.
    + intros k Hk. apply C2. now apply A1.
    + intros p Hp. specialize (C3 p Hp). destruct (snd p); [reflexivity|]. cbn [orb] in *. apply mem_In in C3. apply mem_In.
      apply in_map_iff in C3 as (q & Eq & Hq). apply filter_In in Hq as [Hq Hd]. rewrite <- Eq. apply A2; [exact Hq|].
      now destruct (p_def q).
  - intros p a Hp. specialize (C4 p Hp). apply andb_true_iff in C4 as [P K]. apply nats_eqb_eq in P.
    assert (Q : forall i, (nth_error (map p_doc (d_pos d)) i = Some (p_doc p) /\ i < n) <-> (nth_error (map fst (s_pos g)) i = Some (p_own p) /\ i < n)).
    { intros i. assert (W : forall s l, In i (positions s (firstn n l) 0) <-> nth_error l i = Some s /\ i < n).
      { intros s l. rewrite positions_In. split.
        - intros (j & -> & E). cbn [plus] in *. rewrite nth_firstn in E. destruct (Nat.ltb_spec j n); [|discriminate]. now split.
        - intros [E L]. exists i. split; [reflexivity|]. rewrite nth_firstn. now rewrite (proj2 (Nat.ltb_lt i n) L). }
      rewrite <- (W (p_doc p)), P. apply W. }
    assert (R : In (p_doc p) kws \/ In (p_own p) kws -> p_doc p = p_own p).
    { intros H. apply orb_true_iff in K as [K|K]; [now apply String.eqb_eq|]. exfalso. apply andb_true_iff in K as [K1 K2].
      destruct H as [H|H]; apply A1 in H; apply mem_In in H; [rewrite H in K1|rewrite H in K2]; discriminate. }
    split; intros H; destruct H as [i H1 H2|H1].
    + destruct (proj1 (Q i) (conj H1 H2)) as [Q1 Q2]. apply by_position; assumption.
    + pose proof (R (or_introl H1)) as E. rewrite E in *. apply by_keyword. exact H1.
    + destruct (proj2 (Q i) (conj H1 H2)) as [Q1 Q2]. apply by_position; assumption.
    + pose proof (R (or_intror H1)) as E. rewrite <- E in *. apply by_keyword. exact H1.
Qed.

(** Functions without further positional arguments: finitely many numbers of them. *)
Definition check_all (d : doc) (g : signature) : bool :=
  forallb (check d g) (filter (fun n => Nat.leb (d_only d) n) (seq 0 (S (List.length (d_pos d))))).
Lemma check_all_understood d g : d_star d = false -> check_all d g = true -> forall n kws, allowed d n kws -> understood d g n kws.
Proof.
  intros HS HC n kws HA. apply check_understood; [|exact HA]. unfold check_all in HC. rewrite forallb_forall in HC. apply HC.
  destruct HA as (H1 & [H2|H2] & _); [congruence|]. apply filter_In. split; [apply in_seq; lia|]. now apply Nat.leb_le.
Qed.

(* ---- calls that are not understood *)

Definition allowedb (d : doc) (n : nat) (kws : list string) : bool :=
  Nat.leb (d_only d) n && (d_star d || Nat.leb n (List.length (d_pos d))) && forallb (fun k => mem k (map p_doc (after d n))) kws
  && forallb (fun p => p_def p || mem (p_doc p) kws) (after d n).
Lemma allowedb_allowed d n kws : allowedb d n kws = true -> allowed d n kws.
Proof.
  unfold allowedb. intros H. apply andb_true_iff in H as [H H4]. apply andb_true_iff in H as [H H3]. apply andb_true_iff in H as [H1 H2].
  rewrite forallb_forall in H3, H4. split; [now apply Nat.leb_le|]. split; [apply orb_true_iff in H2 as [H2|H2]; [now left|right; now apply Nat.leb_le]|].
  assert (W : forall p, In p (after d n) -> p_def p = false -> In (p_doc p) kws).
  { intros p Hp Hd. specialize (H4 p Hp). rewrite Hd in H4. now apply mem_In. }
  split; [|split].
  - intros k Hk. specialize (H3 k Hk). apply mem_In in H3. apply in_map_iff in H3 as (p & E & Hp). exists p. split; [exact E|].
    unfold after in Hp. apply in_app_iff in Hp as [Hp|Hp]; [right; now apply skipn_nth|now left].
  - intros i p Hp Hd. destruct (Nat.lt_ge_cases i n) as [L|L]; [now left|right]. apply W; [|exact Hd]. apply in_app_iff. left. exact (nth_skipn _ _ _ _ L Hp).
  - intros p Hp Hd. apply W; [|exact Hd]. apply in_app_iff. now right.
Qed.

Lemma refused_call d g n kws : allowedb d n kws = true -> accepts g n kws = false -> ~ (forall n kws, allowed d n kws -> understood d g n kws).
Proof. intros H1 H2 H. destruct (H n kws (allowedb_allowed _ _ _ H1)) as [H3 _]. congruence. Qed.
Lemma swapped_call d g n kws p i : allowedb d n kws = true -> In p (d_pos d) -> nth_error (map p_doc (d_pos d)) i = Some (p_doc p) -> i < n ->
  nth_error (map fst (s_pos g)) i <> Some (p_own p) -> ~ (forall n kws, allowed d n kws -> understood d g n kws).
Proof.
  intros H1 Hp Hi L Hn H. destruct (H n kws (allowedb_allowed _ _ _ H1)) as [_ H3].
  specialize (H3 p (At_ i) (in_or_app _ _ _ (or_introl Hp))). assert (G : given_to (map p_doc (d_pos d)) n kws (p_doc p) (At_ i)) by (constructor; assumption).
  apply H3 in G. inversion G; subst. contradiction.
Qed.

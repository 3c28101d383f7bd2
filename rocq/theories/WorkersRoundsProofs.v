(** Proofs about the rounds of several workers. *)

From Coq Require Import String List ZArith Bool Lia.
From Coq Require Import ZifyBool.
From Verif Require Import Py Meta Pad Data Workers WorkersSpec WorkersProofs WorkersMany WorkersManySpec WorkersManyProofs.
Import ListNotations.

Open Scope nat_scope.

Section Rounds.
Context {A : Type}.

Lemma goes_on_dec longest r (s : source_of A) : goes_on longest r s \/ ~ goes_on longest r s.
Proof.
  unfold goes_on. destruct (Nat.lt_ge_cases r (length (fst s))) as [H|H]; [left; now left|].
  destruct longest; [|right; intros [X|[X _]]; [lia|discriminate]].
  destruct (snd s); [right; intros [X|[_ X]]; [lia|discriminate]|left; right; split; reflexivity].
Qed.

Lemma first_stop longest r (ss : list (source_of A)) : Forall (goes_on longest r) ss \/
  exists pre s post, ss = pre ++ s :: post /\ Forall (goes_on longest r) pre /\ ~ goes_on longest r s.
Proof.
  induction ss as [|s ss [IH|[pre [s' [post [-> [H1 H2]]]]]]]; [left; constructor| |].
  - destruct (goes_on_dec longest r s) as [H|H]; [left; now constructor|]. right. exists [], s, ss. split; [reflexivity|]. split; [constructor|exact H].
  - destruct (goes_on_dec longest r s) as [H|H].
    + right. exists (s :: pre), s', post. split; [reflexivity|]. split; [now constructor|exact H2].
    + right. exists [], s, (pre ++ s' :: post). split; [reflexivity|]. split; [constructor|exact H].
Qed.

Lemma some_item r (ss : list (source_of A)) : Exists (fun s => r < length (fst s)) ss \/ Forall (fun s => length (fst s) <= r) ss.
Proof.
  induction ss as [|s ss [IH|IH]]; [right; constructor|left; now apply Exists_cons_tl|].
  destruct (Nat.lt_ge_cases r (length (fst s))); [left; now apply Exists_cons_hd|right; now constructor].
Qed.

Lemma ends_somewhere longest (ss : list (source_of A)) : exists R E, ends_at longest ss R E.
Proof.
  set (full_ r := Forall (goes_on longest r) ss /\ Exists (fun s => r < length (fst s)) ss).
  assert (D : forall r, full_ r \/ ((exists pre s post, ss = pre ++ s :: post /\ Forall (goes_on longest r) pre /\ ~ goes_on longest r s) \/
                                    (Forall (goes_on longest r) ss /\ Forall (fun s => length (fst s) <= r) ss))).
  { intros r. destruct (first_stop longest r ss) as [H|H]; [|right; left; exact H].
    destruct (some_item r ss) as [I|I]; [left; now split|right; right; now split]. }
  assert (SS : forall n, (forall r, r < n -> full_ r) \/ exists R, (forall r, r < R -> full_ r) /\
    ((exists pre s post, ss = pre ++ s :: post /\ Forall (goes_on longest R) pre /\ ~ goes_on longest R s) \/
     (Forall (goes_on longest R) ss /\ Forall (fun s => length (fst s) <= R) ss))).
  { induction n as [|n [IH|IH]]; [left; intros; lia| |right; exact IH].
    destruct (D n) as [H|H]; [left|right; exists n; split; [exact IH|exact H]].
    intros r Hr. destruct (Nat.eq_dec r n) as [->|N]; [exact H|apply IH; lia]. }
  destruct (SS (S (list_max (map (fun s => length (fst s)) ss)))) as [H|[R [H1 H2]]].
  - exfalso. destruct (H (list_max (map (fun s => length (fst s)) ss)) ltac:(lia)) as [_ X]. apply Exists_exists in X as [s [X1 X2]].
    pose proof (proj1 (list_max_le (map (fun s => length (fst s)) ss) _) (le_n _)) as M. rewrite Forall_map, Forall_forall in M.
    specialize (M s X1). cbn in M. lia.
  - destruct H2 as [[pre [s [post [P1 [P2 P3]]]]]|[P1 P2]].
    + exists R, (snd s). split; [exact H1|]. left. exists pre, s, post. repeat split; assumption.
    + exists R, None. split; [exact H1|]. right. split; [reflexivity|]. rewrite Forall_forall in *. intros s Hs.
      specialize (P1 s Hs). specialize (P2 s Hs). destruct P1 as [P1|[P1 P3]]; [lia|]. repeat split; assumption.
Qed.

Lemma item_head (g : gen A) l e r : gives g l e -> ghead (gdrop r g) = nth_error l r.
Proof.
  intros H. destruct (nth_error l r) as [a|] eqn:EN.
  - destruct (gives_item g l e r a H EN) as [g' ->]. reflexivity.
  - apply nth_error_None in EN. destruct e as [x|]; [rewrite (gives_raised g l x r H EN)|rewrite (gives_ended g l r H EN)]; reflexivity.
Qed.

Lemma goes_on_fine longest (g : gen A) s r : gives g (fst s) (snd s) -> goes_on longest r s -> fine longest (gdrop r g).
Proof.
  intros H [G|[-> G]].
  - destruct (nth_error_ex (fst s) r G) as [a Ha]. destruct (gives_item _ _ _ _ _ H Ha) as [g' ->].
    destruct longest; [intros x; discriminate|red; eauto].
  - destruct (nth_error (fst s) r) as [a|] eqn:EN.
    + destruct (gives_item _ _ _ _ _ H EN) as [g' ->]. intros x; discriminate.
    + apply nth_error_None in EN. rewrite G in H. rewrite (gives_ended _ _ _ H EN). intros x; discriminate.
Qed.

Definition source_gen (g : gen A) (s : source_of A) : Prop := gives g (fst s) (snd s).

Lemma fine_all longest gs ss r : Forall2 source_gen gs ss -> Forall (goes_on longest r) ss -> Forall (fine longest) (map (gdrop r) gs).
Proof.
  induction 1 as [|g s gs ss H HF IH]; intros HG; [constructor|]. inversion HG; subst. cbn. constructor; [now apply (goes_on_fine _ _ s)|auto].
Qed.

Lemma heads gs ss r : Forall2 source_gen gs ss -> map ghead (map (gdrop r) gs) = round_of ss r.
Proof. induction 1 as [|g s gs ss H HF IH]; [reflexivity|]. unfold round_of in *. cbn. rewrite IH, (item_head g _ _ r H). reflexivity. Qed.

Lemma item_all gs ss r : Forall2 source_gen gs ss -> Exists (fun s => r < length (fst s)) ss -> Exists has_item (map (gdrop r) gs).
Proof.
  induction 1 as [|g s gs ss H HF IH]; intros HE; [inversion HE|]. cbn. apply Exists_cons in HE as [HE|HE]; [|apply Exists_cons_tl; auto].
  apply Exists_cons_hd. destruct (nth_error_ex _ _ HE) as [a Ha]. exists a. exact (gives_item _ _ _ _ _ H Ha).
Qed.

Lemma gives_rounds longest (gs : list (gen A)) ss R E : Forall2 source_gen gs ss -> ends_at longest ss R E ->
  gives (zipped longest gs) (map (round_of ss) (seq 0 R)) E.
Proof.
  intros HS [H1 H2].
  assert (X : forall n r, r + n = R -> gives (zipped longest (map (gdrop r) gs)) (map (round_of ss) (seq r n)) E).
  { induction n as [|n IH]; intros r HR.
    - assert (r = R) by lia. subst r. clear HR H1. cbn. destruct H2 as [[pre [s [post [-> [P1 [P2 P3]]]]]]|[-> P]].
      + apply Forall2_app_inv_r in HS as [gpre [gr [F1 [F2 ->]]]]. inversion F2 as [|g s' gpost post' G F3]; subst. rewrite map_app. cbn [map].
        pose proof (fine_all longest gpre pre R F1 P1) as FF. red in G.
        assert (LE : length (fst s) <= R). { destruct (Nat.lt_ge_cases R (length (fst s))) as [C|C]; [|exact C]. destruct P2. now left. }
        destruct (snd s) as [x|] eqn:ES.
        * rewrite (gives_raised g (fst s) x R G LE), zipped_raise by exact FF. constructor.
        * rewrite (gives_ended g (fst s) R G LE). destruct longest.
          -- destruct P2. right. split; [reflexivity|exact ES].
          -- rewrite zipped_stop_short by exact FF. constructor.
      + destruct longest.
        * rewrite zipped_stop_long; [constructor|]. clear - HS P. induction HS as [|g s gs ss H HF IH]; [constructor|].
          inversion P as [|s0 ss0 [P1 [_ P2]] P3]; subst. cbn. constructor; [|auto]. red in H. rewrite P2 in H. exact (gives_ended _ _ _ H P1).
        * destruct HS as [|g s gs ss H HF]; [constructor|]. inversion P as [|s0 ss0 [_ [P1 _]] _]. discriminate.
    - cbn [seq map]. destruct (H1 r ltac:(lia)) as [Q1 Q2].
      rewrite zipped_cons; [|now apply (fine_all longest gs ss)|now apply (item_all gs ss)]. rewrite (heads gs ss r HS). constructor.
      rewrite map_map, (map_ext _ _ (gtail_gdrop r)). apply IH. lia. }
  specialize (X R 0 eq_refl). replace (map (gdrop 0) gs) with gs in X; [exact X|]. symmetry. rewrite <- (map_id gs) at 2.
  apply map_ext. intros g. destruct g; reflexivity.
Qed.

Lemma map_seq_firstn {B} (f : nat -> B) n r s : map f (seq s n) = firstn n (map f (seq s (n + r))).
Proof. revert s. induction n as [|n IH]; intros s; [reflexivity|]. cbn. rewrite <- IH. reflexivity. Qed.

End Rounds.

Section Many.
Context {A K : Type} (dump : A -> res K) (unpack : K -> res A).

Theorem many_rounds longest k gs ss R E n s : 0 < k ->
  Forall2 (fun g s => gives g (fst s) (snd s)) gs ss -> Forall (fun s => Forall (arrives dump unpack) (fst s)) ss ->
  ends_at longest ss R E -> goes_to dump unpack longest (begin k gs) n s ->
  (exists r, r <= R /\ rounds s = map (round_of ss) (seq 0 r) /\ (mstat s <> Running -> r = R)) /\
  (mstat s = Stopped -> E = None) /\ (forall x, mstat s = Raised x -> E = Some x) /\
  (mstat s = Running -> (exists i, worker_step dump i s <> None) \/ main_step unpack longest s <> None) /\
  n <= list_sum (map (fun s => 2 * (length (fst s) + k) + 4) ss) + (length ss + 1) * (R + 1).
Proof.
  intros HK HS HA HE HR.
  assert (HG : Forall2 (fun g l => exists e, gives g l e) gs (map fst ss)).
  { clear - HS. induction HS; cbn; constructor; [eexists; eassumption|assumption]. }
  assert (HL : length gs = length ss) by (clear - HS; induction HS; cbn; lia).
  destruct (many_deliver dump unpack longest k gs (map fst ss) (map (round_of ss) (seq 0 R)) E n s HK HG) as [[rest P] [Q1 [Q2 [Q3 Q4]]]].
  - apply Forall_map. exact HA.
  - exact (gives_rounds longest gs ss R E HS HE).
  - exact HR.
  - split; [|split; [intros X; exact (proj2 (Q1 X))|split; [intros x X; exact (proj2 (Q2 x X))|split; [exact Q3|]]]].
    + exists (length (rounds s)).
      assert (LR : length (rounds s) + length rest = R).
      { pose proof (f_equal (@length _) P) as X. rewrite map_length, seq_length, app_length in X. lia. }
      split; [lia|]. split.
      * rewrite (map_seq_firstn (round_of ss) (length (rounds s)) (length rest)), LR, P, firstn_app, Nat.sub_diag, firstn_all. cbn. now rewrite app_nil_r.
      * intros X. assert (RL : rounds s = map (round_of ss) (seq 0 R)).
        { destruct (mstat s) as [| |x] eqn:EM; [congruence|exact (proj1 (Q1 eq_refl))|exact (proj1 (Q2 x eq_refl))]. }
        rewrite RL, map_length, seq_length. reflexivity.
    + rewrite map_map, map_length, seq_length, HL in Q4. exact Q4.
Qed.

Lemma gives_gmap {B C} (f : B -> C) g l e : gives (gmap f g) l e -> exists l0, gives g l0 e /\ l = map f l0.
Proof.
  revert l. induction g as [|x|a g IH]; intros l H; cbn in H.
  - inversion H. exists []. split; [constructor|reflexivity].
  - inversion H. exists []. split; [constructor|reflexivity].
  - apply gives_cons_only in H as [l' [-> H]]. destruct (IH l' H) as [l0 [H1 ->]]. exists (a :: l0). split; [now constructor|reflexivity].
Qed.
Lemma gives_gmap_intro {B C} (f : B -> C) g l e : gives g l e -> gives (gmap f g) (map f l) e.
Proof. induction 1; cbn; constructor; assumption. Qed.

Lemma somes_some {B} (l : list B) : somes (map Some l) = l.
Proof. induction l as [|a l IH]; cbn; [reflexivity|now rewrite IH]. Qed.

End Many.

Theorem many_merged {V K} (dump : list (sample V) -> res K) unpack k (w : world V) ds drop_last shuffles L E n s : 0 < k ->
  (forall d sh l e, In (d, sh) (zip ds shuffles) -> gives (get_streams w d sh) l e -> Forall (arrives dump unpack) l) ->
  gives (merged w ds drop_last shuffles) L E ->
  goes_to dump unpack (negb drop_last) (begin k (map (fun p => get_streams w (fst p) (snd p)) (zip ds shuffles))) n s ->
  (exists rest, L = map (fun parts => List.concat (somes parts)) (rounds s) ++ rest) /\
  (mstat s = Stopped -> L = map (fun parts => List.concat (somes parts)) (rounds s) /\ E = None) /\
  (forall x, mstat s = Raised x -> L = map (fun parts => List.concat (somes parts)) (rounds s) /\ E = Some x) /\
  (mstat s = Running -> (exists i, worker_step dump i s <> None) \/ main_step unpack (negb drop_last) s <> None).
Proof.
  intros HK HA HG HR. set (gs := map (fun p => get_streams w (fst p) (snd p)) (zip ds shuffles)) in *.
  assert (HZ : exists L0, gives (zipped (negb drop_last) gs) L0 E /\ L = map (fun parts => List.concat (somes parts)) L0).
  { unfold merged in HG. fold gs in HG. unfold zipped. destruct drop_last; cbn [negb].
    - apply gives_gmap in HG as [l0 [H1 ->]]. exists (map (map Some) l0). split; [now apply gives_gmap_intro|].
      rewrite map_map. apply map_ext. intros p. now rewrite somes_some.
    - apply gives_gmap in HG as [l0 [H1 ->]]. exists l0. split; [exact H1|reflexivity]. }
  destruct HZ as [L0 [HZ ->]].
  destruct (many_deliver dump unpack (negb drop_last) k gs (map (@items _) gs) L0 E n s HK) as [[rest P] [Q1 [Q2 [Q3 _]]]].
  - clear. induction gs as [|g gs IH]; cbn; constructor; [|exact IH]. exists (gend g). apply gives_always.
  - apply Forall_map, Forall_forall. intros g Hg. unfold gs in Hg. apply in_map_iff in Hg as [[d sh] [<- Hp]].
    apply (HA d sh _ (gend (get_streams w d sh)) Hp). apply gives_always.
  - exact HZ.
  - exact HR.
  - split; [exists (map (fun parts => List.concat (somes parts)) rest); now rewrite P, map_app|].
    split; [intros X; destruct (Q1 X) as [-> ->]; split; reflexivity|].
    split; [intros x X; destruct (Q2 x X) as [-> ->]; split; reflexivity|exact Q3].
Qed.

Lemma ends_plain {A} longest (ls : list (list A)) R E : ls <> [] -> ends_at longest (map (fun l => (l, None)) ls) R E ->
  E = None /\ (longest = true -> R = list_max (map (@length A) ls)) /\
  (longest = false -> Forall (fun l => R <= length l) ls /\ Exists (fun l => length l = R) ls).
Proof.
  intros HN [H1 H2].
  assert (HE : E = None).
  { destruct H2 as [[pre [s [post [P1 [_ [_ P2]]]]]]|[H2 _]]; [|exact H2].
    assert (In s (map (fun l => (l, None)) ls)) as HI by (rewrite P1; apply in_or_app; right; now left).
    apply in_map_iff in HI as [l [<- _]]. symmetry. exact P2. }
  split; [exact HE|]. split.
  - intros ->.
    assert (UP : Forall (fun l => length l <= R) ls).
    { destruct H2 as [[pre [s [post [P1 [_ [P2 _]]]]]]|[_ H2]].
      - exfalso. apply P2. right. split; [reflexivity|].
        assert (In s (map (fun l => (l, None)) ls)) as HI by (rewrite P1; apply in_or_app; right; now left).
        apply in_map_iff in HI as [l [<- _]]. reflexivity.
      - rewrite Forall_map in H2. rewrite Forall_forall in *. intros l Hl. exact (proj1 (H2 l Hl)). }
    apply Nat.le_antisymm.
    + destruct R as [|r]; [lia|]. destruct (H1 r ltac:(lia)) as [_ X]. apply Exists_exists in X as [s [X1 X2]].
      apply in_map_iff in X1 as [l [<- X1]]. cbn in X2.
      pose proof (proj1 (list_max_le (map (@length A) ls) _) (le_n _)) as M. rewrite Forall_map, Forall_forall in M. specialize (M l X1). lia.
    + apply list_max_le. rewrite Forall_map. exact UP.
  - intros ->.
    assert (LO : Forall (fun l => R <= length l) ls).
    { destruct R as [|r]; [apply Forall_forall; intros; lia|]. destruct (H1 r ltac:(lia)) as [X _]. rewrite Forall_map in X. rewrite Forall_forall in *.
      intros l Hl. destruct (X l Hl) as [Y|[Y _]]; [cbn in Y; lia|discriminate]. }
    split; [exact LO|]. destruct H2 as [[pre [s [post [P1 [_ [P2 _]]]]]]|[_ H2]].
    + assert (In s (map (fun l => (l, None)) ls)) as HI by (rewrite P1; apply in_or_app; right; now left).
      apply in_map_iff in HI as [l [<- HI]]. apply Exists_exists. exists l. split; [exact HI|]. rewrite Forall_forall in LO. specialize (LO l HI).
      destruct (Nat.lt_ge_cases R (length l)) as [C|C]; [|lia]. destruct P2. now left.
    + destruct ls as [|l ls]; [congruence|]. inversion H2 as [|x y [_ [Z _]]]. discriminate.
Qed.

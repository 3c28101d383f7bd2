(** Proofs about worker processes. *)

From Coq Require Import String List ZArith Bool Lia.
From Coq Require Import ZifyBool.
From Verif Require Import Py Meta Pad Data Workers WorkersSpec.
Import ListNotations.

Open Scope nat_scope.

Section Machine.
Context {A K : Type} (dump : A -> res K) (unpack : K -> res A).

Fixpoint items (g : gen A) : list A := match g with GCons a t => a :: items t | _ => [] end.

Lemma gives_items (g : gen A) l e : gives g l e -> items g = l.
Proof. induction 1; cbn; congruence. Qed.

Lemma gives_nil_inv (g : gen A) : gives g [] None -> g = GStop.
Proof. intros H. inversion H. reflexivity. Qed.
Lemma gives_cons_inv (g : gen A) a l e : gives g (a :: l) e -> exists g', g = GCons a g' /\ gives g' l e.
Proof. intros H. inversion H; subst. eauto. Qed.

Definition pay (a : A) : payload K := match dump a with Ok k => Data k | Err _ => End_ end.
Definition last_pay (e : option exn) : list (payload K) := match e with None => [End_] | Some x => [Exc x; End_] end.
Definition full (l : list A) (e : option exn) : list (payload K) := map pay l ++ last_pay e.
Fixpoint full_gen (g : gen A) : list (payload K) :=
  match g with GStop => [End_] | GRaise x => [Exc x; End_] | GCons a t => pay a :: full_gen t end.

Lemma gives_full g l e : gives g l e -> full_gen g = full l e.
Proof. induction 1; cbn; [reflexivity|reflexivity|]. unfold full in *. cbn. now rewrite IHgives. Qed.
Lemma full_gen_nonnil g : full_gen g <> [].
Proof. destruct g; discriminate. Qed.
Lemma full_nonnil l e : full l e <> [].
Proof. unfold full. destruct l; [destruct e|]; discriminate. Qed.

Fixpoint number (n : nat) (q : list (payload K)) : list (nat * payload K) :=
  match q with [] => [] | p :: t => (n, p) :: number (S n) t end.
Lemma number_app n q r : number n (q ++ r) = number n q ++ number (n + length q) r.
Proof.
  revert n. induction q as [|p q IH]; intros n; cbn; [now rewrite Nat.add_0_r|]. rewrite IH. do 2 f_equal. f_equal. lia.
Qed.

(* ---- everything arrives *)

Context (k : nat) (l : list A) (e : option exn).

Inductive inv (n : nat) (m : machine A K) : Prop :=
| inv_run todo q :
    stat m = Running -> avail m = true -> stored m = [] -> l = out m ++ todo -> rcvd m = length (out m) -> sent m = rcvd m + k ->
    results m = number (rcvd m) q -> full todo e = q ++ (if ended m then [] else full_gen (left m)) ->
    Forall (arrives dump unpack) (items (left m)) -> Forall (arrives dump unpack) todo ->
    (ended m = false -> tasks m = seq (rcvd m + length q) (k - length q) /\ length q <= k) ->
    n + length (tasks m) <= sent m + rcvd m -> length (tasks m) <= sent m -> inv n m
| inv_post :
    stat m = Running -> avail m = false -> ended m = true -> stored m = [] -> results m = [] -> out m = l -> e = None ->
    rcvd m <= sent m -> sent m <= length l + k ->
    n + length (tasks m) <= sent m + rcvd m + 1 -> length (tasks m) <= sent m -> inv n m
| inv_stop : stat m = Stopped -> out m = l -> e = None -> n + length (tasks m) <= 2 * (length l + k) + 2 -> inv n m
| inv_raise x : stat m = Raised x -> out m = l -> e = Some x -> n + length (tasks m) <= 2 * (length l + k) + 4 -> inv n m.

Lemma inv_w n m m' : inv n m -> wstep dump m = Some m' -> inv (S n) m'.
Proof.
  intros HI HW. unfold wstep in HW. destruct (tasks m) as [|i ts] eqn:ET; [discriminate|].
  destruct HI as [todo q H1 H2 H3 H4 H5 H6 H7 H8 H9 H9' H10 H11 H12|H1 H2 H3 H4 H5 H6 H7 H8 H9 H10 H11|H1 H2 H3 H4|x H1 H2 H3 H4].
  - rewrite ET in H11, H12. cbn in H11, H12. destruct (ended m) eqn:EE.
    + injection HW as <-. apply (inv_run _ _ todo q); cbn; try assumption; try lia.
    + destruct (H10 eq_refl) as [HT HQ]. rewrite ET in HT.
      assert (HK : length q < k). { destruct (Nat.eq_dec (length q) k) as [E|E]; [|lia]. rewrite E, Nat.sub_diag in HT. discriminate. }
      replace (k - length q) with (S (k - length q - 1)) in HT by lia. cbn in HT. injection HT as -> ->.
      destruct (left m) as [|x|a g] eqn:EL; injection HW as <-.
      * apply (inv_run _ _ todo (q ++ [End_])); cbn; try assumption; try lia.
        -- rewrite H7, number_app. reflexivity.
        -- rewrite H8, app_nil_r. reflexivity.
      * apply (inv_run _ _ todo (q ++ [Exc x])); cbn; try assumption; try lia.
        -- rewrite H7, number_app. reflexivity.
        -- rewrite H8, <- app_assoc. reflexivity.
        -- intros _. rewrite app_length. cbn. split; [f_equal; lia|lia].
      * cbn in H9. apply Forall_inv in H9 as Ha. apply Forall_inv_tail in H9. destruct Ha as [kk [D1 D2]].
        apply (inv_run _ _ todo (q ++ [pay a])); cbn; try assumption; try lia.
        -- rewrite H7, number_app. cbn. unfold pay. rewrite D1. reflexivity.
        -- rewrite H8, <- app_assoc. reflexivity.
        -- intros _. rewrite app_length. cbn. split; [f_equal; lia|lia].
  - rewrite ET in H10, H11. cbn in H10, H11. rewrite H3 in HW. injection HW as <-. apply inv_post; cbn; try assumption; try reflexivity; lia.
  - rewrite ET in H4. cbn in H4. apply inv_stop.
    + destruct (ended m); [injection HW as <-; exact H1|]. destruct (left m); injection HW as <-; exact H1.
    + destruct (ended m); [injection HW as <-; exact H2|]. destruct (left m); injection HW as <-; exact H2.
    + exact H3.
    + destruct (ended m); [injection HW as <-; cbn; lia|]. destruct (left m); injection HW as <-; cbn; lia.
  - rewrite ET in H4. cbn in H4. apply (inv_raise _ _ x).
    + destruct (ended m); [injection HW as <-; exact H1|]. destruct (left m); injection HW as <-; exact H1.
    + destruct (ended m); [injection HW as <-; exact H2|]. destruct (left m); injection HW as <-; exact H2.
    + exact H3.
    + destruct (ended m); [injection HW as <-; cbn; lia|]. destruct (left m); injection HW as <-; cbn; lia.
Qed.

Lemma inv_m n m m' : 0 < k -> inv n m -> mstep unpack m = Some m' -> inv (S n) m'.
Proof.
  intros HK HI HM. unfold mstep in HM.
  destruct HI as [todo q H1 H2 H3 H4 H5 H6 H7 H8 H9 H9' H10 H11 H12|H1 H2 H3 H4 H5 H6 H7 H8 H9 H10 H11|H1 H2 H3 H4|x H1 H2 H3 H4].
  - rewrite H1, H2, H3 in HM. destruct (Nat.leb_spec (sent m) (rcvd m)) as [L|L]; [lia|]. cbn in HM.
    destruct q as [|p q]; [rewrite H7 in HM; discriminate|]. rewrite H7 in HM. cbn in HM.
    destruct todo as [|a todo].
    + unfold full in H8. cbn in H8. destruct e as [x|] eqn:EE; cbn in H8.
      * injection H8 as HP HR. subst p. rewrite Nat.eqb_refl in HM. unfold process in HM. rewrite H2 in HM. injection HM as <-.
        apply (inv_raise _ _ x); cbn; try reflexivity.
        -- rewrite H4, app_nil_r. reflexivity.
        -- exact EE.
        -- assert (length l = length (out m)) by (rewrite H4, app_nil_r; reflexivity). rewrite app_length. cbn. lia.
      * injection H8 as HP HR. subst p. injection HM as <-.
        assert (Hq : q = [] /\ ended m = true).
        { destruct q; [|discriminate]. destruct (ended m); [split; reflexivity|]. cbn in HR. exfalso. exact (full_gen_nonnil _ (eq_sym HR)). }
        destruct Hq as [-> Hen]. apply inv_post; cbn; try assumption; try reflexivity; try lia.
        -- rewrite H4, app_nil_r. reflexivity.
        -- assert (length l = length (out m)) by (rewrite H4, app_nil_r; reflexivity). lia.
    + apply Forall_inv in H9' as Ha. apply Forall_inv_tail in H9'. destruct Ha as [kk [D1 D2]].
      unfold full in H8. cbn in H8. injection H8 as HP HR. unfold pay in HP. rewrite D1 in HP. subst p. rewrite D2 in HM.
      rewrite Nat.eqb_refl in HM. unfold process in HM. rewrite H2 in HM. injection HM as <-.
      apply (inv_run _ _ todo q); cbn; try assumption; try reflexivity; try lia.
      * rewrite H4, <- app_assoc. reflexivity.
      * rewrite app_length. cbn. lia.
      * intros D. destruct (H10 D) as [T1 T2]. cbn in T1, T2. rewrite T1. split; [|lia].
        rewrite H6. replace (k - length q) with (k - S (length q) + 1) by lia. rewrite seq_app. f_equal; [f_equal; lia|]. cbn. f_equal. lia.
      * rewrite app_length. cbn. lia.
      * rewrite app_length. cbn. lia.
  - rewrite H1, H2, H4 in HM. destruct (Nat.leb_spec (sent m) (rcvd m)) as [L|L].
    + injection HM as <-. apply inv_stop; cbn; try assumption; try reflexivity. lia.
    + cbn in HM. injection HM as <-. apply inv_post; cbn; try assumption; lia.
  - rewrite H1 in HM. discriminate.
  - rewrite H1 in HM. discriminate.
Qed.

Lemma inv_start g : gives g l e -> Forall (arrives dump unpack) l -> inv 0 (start k g).
Proof.
  intros HG HF. unfold start. apply (inv_run _ _ l []); cbn; try reflexivity.
  - rewrite (gives_full g l e HG). reflexivity.
  - rewrite (gives_items g l e HG). exact HF.
  - exact HF.
  - intros _. rewrite Nat.sub_0_r. split; [reflexivity|lia].
  - rewrite seq_length. lia.
  - rewrite seq_length. lia.
Qed.

Lemma inv_runs g n m : 0 < k -> gives g l e -> Forall (arrives dump unpack) l -> runs_to dump unpack (start k g) n m -> inv n m.
Proof.
  intros HK HG HF HR. induction HR as [|n m1 m2 _ IH HS|n m1 m2 _ IH HS].
  - now apply inv_start.
  - exact (inv_w _ _ _ IH HS).
  - exact (inv_m _ _ _ HK IH HS).
Qed.

Lemma inv_progress n m : 0 < k -> inv n m -> stat m = Running -> wstep dump m <> None \/ mstep unpack m <> None.
Proof.
  intros HK HI HS.
  destruct HI as [todo q H1 H2 H3 H4 H5 H6 H7 H8 H9 H9' H10 H11 H12|H1 H2 H3 H4 H5 H6 H7 H8 H9 H10 H11|H1 H2 H3 H4|x H1 H2 H3 H4]; try congruence.
  - destruct q as [|p q].
    + left. destruct (ended m) eqn:EE; [exfalso; cbn in H8; exact (full_nonnil todo e H8)|].
      destruct (H10 eq_refl) as [T _]. cbn in T. rewrite Nat.sub_0_r in T. unfold wstep. rewrite T. destruct k as [|k']; [lia|]. cbn.
      destruct (ended m); [discriminate|]. destruct (left m); discriminate.
    + right. unfold mstep. rewrite H1, H2, H3, H7. destruct (Nat.leb (sent m) (rcvd m)); [discriminate|]. cbn.
      destruct p as [kk|x|]; [|rewrite Nat.eqb_refl; discriminate|discriminate].
      destruct (unpack kk); [rewrite Nat.eqb_refl|]; discriminate.
  - right. unfold mstep. rewrite H1, H2, H4. destruct (Nat.leb (sent m) (rcvd m)); [discriminate|]. cbn. discriminate.
Qed.

Theorem worker_delivers g n m : 0 < k -> gives g l e -> Forall (arrives dump unpack) l -> runs_to dump unpack (start k g) n m ->
  (exists rest, l = out m ++ rest) /\
  (stat m = Stopped -> out m = l /\ e = None) /\ (forall x, stat m = Raised x -> out m = l /\ e = Some x) /\
  (stat m = Running -> wstep dump m <> None \/ mstep unpack m <> None) /\
  n <= 2 * (length l + k) + 4.
Proof.
  intros HK HG HF HR. pose proof (inv_runs g n m HK HG HF HR) as HI.
  split; [|split; [|split; [|split; [exact (inv_progress n m HK HI)|]]]].
  - destruct HI as [todo q H1 H2 H3 H4|H1 H2 H3 H4 H5 H6|H1 H2|x H1 H2]; [exists todo; exact H4| | |]; exists []; rewrite app_nil_r; congruence.
  - intros HS. destruct HI as [todo q H1|H1|H1 H2 H3|x H1 H2 H3]; try congruence. now split.
  - intros x HS. destruct HI as [todo q H1|H1|H1 H2 H3|y H1 H2 H3]; try congruence. split; congruence.
  - destruct HI as [todo q H1 H2 H3 H4 H5 H6 H7 H8 H9 H9' H10 H11 H12|H1 H2 H3 H4 H5 H6 H7 H8 H9 H10 H11|H1 H2 H3 H4|x H1 H2 H3 H4].
    + assert (length l = length (out m) + length todo) by (rewrite H4, app_length; reflexivity). lia.
    + lia.
    + lia.
    + lia.
Qed.

End Machine.

(* ---- nothing can be sent *)

Section Lost.
Context {A K : Type} (dump : A -> res K) (unpack : K -> res A) (k : nat) (l : list A).

Inductive linv (n : nat) (m : machine A K) : Prop :=
| linv_run w :
    stat m = Running -> avail m = true -> stored m = [] -> out m = [] -> rcvd m = 0 -> sent m = k ->
    tasks m = seq w (k - w) -> w <= k ->
    ended m = Nat.ltb (length l) w -> (w <= length l -> gives (left m) (skipn w l) None) ->
    results m = (if Nat.ltb (length l) w then [(length l, End_)] else []) -> n = w -> linv n m
| linv_post :
    stat m = Running -> avail m = false -> ended m = true -> stored m = [] -> results m = [] -> out m = [] -> length l < k ->
    rcvd m <= sent m -> sent m = k -> length (tasks m) <= k -> n + length (tasks m) <= k + rcvd m + 1 -> linv n m
| linv_stop : stat m = Stopped -> out m = [] -> length l < k -> n + length (tasks m) <= 2 * k + 2 -> linv n m.

Lemma linv_runs g n m : 0 < k -> gives g l None -> Forall (unsendable dump) l -> runs_to dump unpack (start k g) n m -> linv n m.
Proof.
  intros Hk HG HF HR. induction HR as [|n m1 m2 _ IH HS|n m1 m2 _ IH HS].
  - apply (linv_run _ _ 0); cbn; try reflexivity; try lia.
    + now rewrite Nat.sub_0_r.
    + intros _. exact HG.
  - unfold wstep in HS. destruct (tasks m1) as [|i ts] eqn:ET; [discriminate|].
    destruct IH as [w H1 H2 H3 H4 H5 H6 H7 H8 H9 H10 H11 H12|H1 H2 H3 H4 H5 H6 H7 H8 H9 H10 H11|H1 H2 H3 H4].
    + rewrite ET in H7. assert (HK : w < k). { destruct (Nat.eq_dec w k) as [E|E]; [|lia]. rewrite E, Nat.sub_diag in H7. discriminate. }
      replace (k - w) with (S (k - S w)) in H7 by lia. cbn in H7. injection H7 as -> ->.
      destruct (Nat.ltb_spec (length l) w) as [L|L].
      * rewrite H9 in HS. injection HS as <-. apply (linv_run _ _ (S w)); cbn [stat avail stored out rcvd sent tasks ended left results]; try assumption; try reflexivity; try lia.
        -- rewrite H11. replace (Nat.ltb (length l) (S w)) with true; [reflexivity|]. symmetry. apply Nat.ltb_lt. lia.
      * rewrite H9 in HS. specialize (H10 L). rewrite H11 in HS. cbn in HS.
        destruct (Nat.eq_dec w (length l)) as [E|E].
        -- subst n. subst w. rewrite skipn_all in H10. rewrite (gives_nil_inv _ H10) in HS. injection HS as <-.
           apply (linv_run _ _ (S (length l))); cbn [stat avail stored out rcvd sent tasks ended left results]; try assumption; try reflexivity; try lia.
           ++ replace (Nat.ltb (length l) (S (length l))) with true; [reflexivity|]. symmetry. apply Nat.ltb_lt. lia.
        -- assert (Hlt : w < length l) by lia.
           destruct (nth_error l w) as [a|] eqn:EA; [|apply nth_error_None in EA; lia].
           assert (HSk : skipn w l = a :: skipn (S w) l).
           { clear - EA. revert l EA. induction w as [|w IH]; intros [|b l] EA; try discriminate; cbn in *; [congruence|]. now apply IH. }
           rewrite HSk in H10. destruct (gives_cons_inv _ _ _ _ H10) as [g' [E1 HG']]. rewrite E1 in HS.
           destruct (proj1 (Forall_forall _ _) HF a (nth_error_In _ _ EA)) as [x Hx]. rewrite Hx in HS. injection HS as <-.
           apply (linv_run _ _ (S w)); cbn [stat avail stored out rcvd sent tasks ended left results]; try assumption; try reflexivity; try lia.
           ++ intros _. exact HG'.
           ++ replace (Nat.ltb (length l) (S w)) with false; [reflexivity|]. symmetry. apply Nat.ltb_ge. lia.
    + rewrite ET in H10, H11. cbn in H10, H11. rewrite H3 in HS. injection HS as <-. apply linv_post; cbn; try assumption; try reflexivity; lia.
    + rewrite ET in H4. cbn in H4. apply linv_stop.
      * destruct (ended m1); [injection HS as <-; exact H1|]. destruct (left m1); injection HS as <-; exact H1.
      * destruct (ended m1); [injection HS as <-; exact H2|]. destruct (left m1); injection HS as <-; exact H2.
      * exact H3.
      * destruct (ended m1); [injection HS as <-; cbn; lia|]. destruct (left m1); injection HS as <-; cbn; lia.
  - unfold mstep in HS.
    destruct IH as [w H1 H2 H3 H4 H5 H6 H7 H8 H9 H10 H11 H12|H1 H2 H3 H4 H5 H6 H7 H8 H9 H10 H11|H1 H2 H3 H4].
    + rewrite H1, H2, H3, H5, H6 in HS. destruct (Nat.leb_spec k 0) as [L|L].
      * lia.
      * cbn in HS. rewrite H11 in HS. destruct (Nat.ltb_spec (length l) w) as [L'|L']; [|discriminate]. injection HS as <-.
        apply linv_post; cbn; try assumption; try reflexivity; try lia.
        -- rewrite H7, seq_length. lia.
        -- rewrite H7, seq_length. lia.
    + rewrite H1, H2, H4 in HS. destruct (Nat.leb_spec (sent m1) (rcvd m1)) as [L|L].
      * injection HS as <-. apply linv_stop; cbn; try assumption; try reflexivity. lia.
      * cbn in HS. injection HS as <-. apply linv_post; cbn; try assumption; lia.
    + rewrite H1 in HS. discriminate.
Qed.

Lemma linv_progress n m : linv n m -> stat m = Running -> length l < k -> wstep dump m <> None \/ mstep unpack m <> None.
Proof.
  intros HI HS HL. destruct HI as [w H1 H2 H3 H4 H5 H6 H7 H8 H9 H10 H11 H12|H1 H2 H3 H4 H5 H6 H7 H8 H9 H10 H11|H1 H2 H3 H4]; [| |congruence].
  - destruct (Nat.eq_dec w k) as [E|E].
    + right. assert (EL : Nat.ltb (length l) w = true) by (apply Nat.ltb_lt; lia). rewrite EL in H11.
      unfold mstep. rewrite H1, H2, H3, H5, H6, H11. destruct (Nat.leb k 0); cbn; discriminate.
    + left. unfold wstep. rewrite H7. replace (k - w) with (S (k - S w)) by lia. cbn. destruct (ended m); [discriminate|].
      destruct (left m); discriminate.
  - right. unfold mstep. rewrite H1, H2, H4. destruct (Nat.leb (sent m) (rcvd m)); discriminate.
Qed.

Theorem worker_loses g n m : 0 < k -> gives g l None -> Forall (unsendable dump) l -> runs_to dump unpack (start k g) n m ->
  out m = [] /\ n <= 2 * k + 2 /\ (forall x, stat m <> Raised x) /\
  (length l < k -> stat m = Running -> wstep dump m <> None \/ mstep unpack m <> None) /\
  (k <= length l -> stat m = Running).
Proof.
  intros Hk HG HF HR. pose proof (linv_runs g n m Hk HG HF HR) as HI.
  split; [|split; [|split; [|split]]].
  - destruct HI; assumption.
  - destruct HI as [w H1 H2 H3 H4 H5 H6 H7 H8 H9 H10 H11 H12|H1 H2 H3 H4 H5 H6 H7 H8 H9 H10 H11|H1 H2 H3 H4]; lia.
  - intros x Hx. destruct HI; congruence.
  - intros HL HS. exact (linv_progress n m HI HS HL).
  - intros HL. destruct HI; try assumption; lia.
Qed.
End Lost.

(* ---------- an item that cannot be read *)

Section Unreadable.
Context {A K : Type} (dump : A -> res K) (unpack : K -> res A) (a : A) (g : gen A) (k : K) (x : exn).
Context (Hd : dump a = Ok k) (Hu : unpack k = Err x).

Definition uinv (m : machine A K) : Prop :=
  out m = [] /\
  (stat m = Raised x \/
   stat m = Running /\ rcvd m = 0 /\ stored m = [] /\ avail m = true /\ 0 < sent m /\
   ((results m = [] /\ left m = GCons a g /\ ended m = false /\ tasks m <> []) \/ exists i r, results m = (i, Data k) :: r)).

Lemma uinv_w m m' : uinv m -> wstep dump m = Some m' -> uinv m'.
Proof.
  intros (Ho & H) E. unfold wstep in E. destruct (tasks m) as [|i ts] eqn:Et; [discriminate|].
  destruct H as [H|(H1 & H2 & H3 & H4 & H5 & H6)].
  - destruct (ended m); [inversion E; subst; split; [exact Ho|now left]|].
    destruct (match left m with GStop => _ | GRaise _ => _ | GCons _ _ => _ end) as [[g' e'] r']. inversion E; subst. split; [exact Ho|now left].
  - destruct H6 as [(R & L & D & T)|(j & r & R)].
    + rewrite D, L, Hd in E. inversion E; subst; clear E. split; [exact Ho|]. right. cbn. rewrite R. repeat (split; [assumption|]). right. now exists i, [].
    + destruct (ended m).
      * inversion E; subst. split; [exact Ho|]. right. cbn. repeat (split; [assumption|]). right. now exists j, r.
      * destruct (match left m with GStop => _ | GRaise _ => _ | GCons _ _ => _ end) as [[g' e'] r']. inversion E; subst. split; [exact Ho|]. right. cbn.
        repeat (split; [assumption|]). right. exists j, (r ++ r'). now rewrite R.
Qed.

Lemma uinv_m m m' : uinv m -> mstep unpack m = Some m' -> uinv m'.
Proof.
  intros (Ho & H) E. unfold mstep in E. destruct H as [H|(H1 & H2 & H3 & H4 & H5 & H6)]; [rewrite H in E; discriminate|].
  rewrite H1, H2, H3, H4 in E. cbn [find_stored negb] in E. destruct (Nat.leb_spec (sent m) 0); [lia|].
  destruct H6 as [(R & _)|(j & r & R)]; rewrite R in E; [discriminate|]. rewrite Hu in E. inversion E; subst. split; [exact Ho|now left].
Qed.

Theorem worker_unreadable_inv prefetch n m : 0 < prefetch -> runs_to dump unpack (start prefetch (GCons a g)) n m -> uinv m.
Proof.
  intros Hp H. induction H as [|n m1 m2 H IH E|n m1 m2 H IH E]; [|exact (uinv_w _ _ IH E)|exact (uinv_m _ _ IH E)].
  split; [reflexivity|]. right. cbn. repeat (split; [solve [reflexivity|exact Hp]|]). left. repeat (split; [reflexivity|]).
  destruct prefetch; [lia|discriminate].
Qed.
End Unreadable.

Theorem worker_unreadable {A K} (dump : A -> res K) (unpack : K -> res A) prefetch a g k x n m :
  0 < prefetch -> dump a = Ok k -> unpack k = Err x -> runs_to dump unpack (start prefetch (GCons a g)) n m ->
  out m = [] /\ (stat m = Raised x \/ (stat m = Running /\ (wstep dump m <> None \/ mstep unpack m <> None))).
Proof.
  intros Hp Hd Hu H. destruct (worker_unreadable_inv dump unpack a g k x Hd Hu prefetch n m Hp H) as (Ho & Hs). split; [exact Ho|].
  destruct Hs as [Hs|(H1 & H2 & H3 & H4 & H5 & H6)]; [now left|]. right. split; [exact H1|].
  destruct H6 as [(R & L & D & T)|(j & r & R)].
  - left. unfold wstep. destruct (tasks m); [congruence|]. rewrite D, L, Hd. discriminate.
  - right. unfold mstep. rewrite H1, H2, H3, H4, R, Hu. cbn [find_stored negb]. destruct (Nat.leb (sent m) 0); discriminate.
Qed.

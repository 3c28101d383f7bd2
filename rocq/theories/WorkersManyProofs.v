(** Proofs about several worker processes. *)

From Coq Require Import String List ZArith Bool Lia.
From Coq Require Import ZifyBool.
From Verif Require Import Py Meta Pad Data Workers WorkersSpec WorkersProofs WorkersMany LazyProofs.
Import ListNotations.

Open Scope nat_scope.

(* ---- zip and zip_longest round by round *)

Section Zip.
Context {A : Type}.

Fixpoint gdrop (n : nat) (g : gen A) : gen A :=
  match n, g with S n', GCons _ t => gdrop n' t | _, _ => g end.
Definition ghead (g : gen A) : option A := match g with GCons a _ => Some a | _ => None end.
Definition gtail (g : gen A) : gen A := match g with GCons _ t => t | _ => g end.

Lemma gtail_gdrop n g : gtail (gdrop n g) = gdrop (S n) g.
Proof.
  revert g. induction n as [|n IH]; intros g; destruct g; try reflexivity. cbn [gdrop]. rewrite IH. reflexivity.
Qed.

Lemma gives_gdrop g l e n : gives g l e -> gives (gdrop n g) (skipn n l) e.
Proof.
  intros H. revert n. induction H as [|e|a g l e H IH]; intros [|n]; cbn; try constructor; try assumption. apply IH.
Qed.

Lemma gives_ended g l n : gives g l None -> length l <= n -> gdrop n g = GStop.
Proof.
  intros H L. pose proof (gives_gdrop g l None n H) as D. rewrite skipn_all2 in D by exact L. now inversion D.
Qed.

Lemma gives_raised g l x n : gives g l (Some x) -> length l <= n -> gdrop n g = GRaise x.
Proof.
  intros H L. pose proof (gives_gdrop g l (Some x) n H) as D. rewrite skipn_all2 in D by exact L. now inversion D.
Qed.

Lemma gives_stop_only {B} (l : list B) e : gives GStop l e -> l = [] /\ e = None.
Proof. intros H. inversion H. split; reflexivity. Qed.
Lemma gives_raise_only {B} (l : list B) x e : gives (GRaise x) l e -> l = [] /\ e = Some x.
Proof. intros H. inversion H. split; reflexivity. Qed.
Lemma gives_cons_only {B} (a : B) g l e : gives (GCons a g) l e -> exists l', l = a :: l' /\ gives g l' e.
Proof. intros H. inversion H; subst. eauto. Qed.

Lemma gives_item g l e n a : gives g l e -> nth_error l n = Some a -> exists g', gdrop n g = GCons a g'.
Proof.
  intros H E. pose proof (gives_gdrop g l e n H) as D. apply nth_error_split in E as [l1 [l2 [-> E]]].
  rewrite skipn_app, skipn_all2, <- E, Nat.sub_diag in D by lia. cbn in D. inversion D; subst. eauto.
Qed.

(** What the sequential program makes of the generators. *)
Definition zipped (longest : bool) (gs : list (gen A)) : gen (list (option A)) :=
  if longest then zip_longest gs else gmap (map Some) (zip_gens gs).

Definition fine (longest : bool) (g : gen A) : Prop :=
  if longest then forall x, g <> GRaise x else exists a g', g = GCons a g'.
Definition has_item (g : gen A) : Prop := exists a g', g = GCons a g'.

Lemma zl2_raise n g x : (forall y, g <> GRaise y) -> zip_longest2 (A:=A) n g (GRaise x) = GRaise x.
Proof. intros H. destruct g; [reflexivity|destruct (H e); reflexivity|reflexivity]. Qed.

Lemma zip_cons (g : gen A) gs : gs <> [] -> zip_gens (g :: gs) = zip2 g (zip_gens gs).
Proof. intros H. destruct gs; [congruence|reflexivity]. Qed.

Lemma zipped_raise longest pre x post : Forall (fine longest) pre -> zipped longest (pre ++ GRaise x :: post) = GRaise x.
Proof.
  unfold zipped, fine. intros H. destruct longest.
  - induction H as [|g pre Hg H IH]; [reflexivity|]. cbn [app zip_longest]. rewrite IH. now apply zl2_raise.
  - assert (E : zip_gens (pre ++ GRaise x :: post) = GRaise x).
    { induction H as [|g pre [a [g' ->]] H IH].
      - destruct post; reflexivity.
      - cbn [app]. rewrite zip_cons by (destruct pre; discriminate). rewrite IH. reflexivity. }
    rewrite E. reflexivity.
Qed.

Lemma zip_gens_stop pre post : Forall (fine false) pre -> zip_gens (A:=A) (pre ++ GStop :: post) = GStop.
Proof.
  unfold fine. intros H. induction H as [|g pre [a [g' ->]] H IH].
  - destruct post; reflexivity.
  - cbn [app]. rewrite zip_cons by (destruct pre; discriminate). rewrite IH. reflexivity.
Qed.

Lemma zipped_stop_short pre post : Forall (fine false) pre -> zipped false (pre ++ GStop :: post) = GStop.
Proof. intros H. unfold zipped. rewrite zip_gens_stop by exact H. reflexivity. Qed.

Lemma zipped_stop_long gs : Forall (fun g => g = GStop) gs -> zipped true gs = GStop.
Proof.
  unfold zipped. induction 1 as [|g gs -> H IH]; [reflexivity|]. cbn. rewrite IH. reflexivity.
Qed.

Lemma stop_tail gs : Forall (fun g : gen A => g = GStop) gs -> map gtail gs = gs /\ map ghead gs = repeat None (length gs).
Proof. induction 1 as [|g gs -> H [I1 I2]]; [split; reflexivity|]. cbn. rewrite I1, I2. split; reflexivity. Qed.

Lemma stop_or_item gs : Forall (fine true) gs -> Forall (fun g : gen A => g = GStop) gs \/ Exists has_item gs.
Proof.
  induction 1 as [|g gs Hg H [IH|IH]]; [left; constructor| |right; now apply Exists_cons_tl].
  destruct g as [|e|a g]; [left; now constructor|destruct (Hg e); reflexivity|right; apply Exists_cons_hd; red; eauto].
Qed.

Lemma zipped_cons longest gs : Forall (fine longest) gs -> Exists has_item gs ->
  zipped longest gs = GCons (map ghead gs) (zipped longest (map gtail gs)).
Proof.
  unfold zipped. destruct longest; intros H HE.
  - induction H as [|g gs Hg H IH]; [inversion HE|]. cbn [zip_longest map]. rewrite map_length.
    destruct (stop_or_item gs H) as [S|S].
    + destruct (stop_tail gs S) as [T1 T2]. rewrite T1, T2.
      pose proof (zipped_stop_long gs S) as Z. unfold zipped in Z. rewrite Z.
      destruct g as [|e|a g].
      * exfalso. apply Exists_cons in HE as [[a [g' E]]|HE]; [discriminate|].
        apply Exists_exists in HE as [x [Hx [a [g' ->]]]]. rewrite Forall_forall in S. discriminate (S _ Hx).
      * destruct (Hg e). reflexivity.
      * reflexivity.
    + rewrite (IH S). destruct g as [|e|a g]; [reflexivity|destruct (Hg e); reflexivity|reflexivity].
  - assert (G : gs <> []) by (intros ->; inversion HE). clear HE.
    assert (E : exists xs, zip_gens gs = GCons xs (zip_gens (map gtail gs)) /\ map Some xs = map ghead gs).
    { induction H as [|g gs [a [g' ->]] H IH]; [congruence|]. destruct gs as [|g1 gs].
      - exists [a]. cbn. split; [|reflexivity]. destruct g'; reflexivity.
      - destruct IH as [xs [E1 E2]]; [discriminate|]. exists (a :: xs). rewrite zip_cons by discriminate. rewrite E1.
        split; [|cbn in *; now rewrite E2].
        replace (map gtail (GCons a g' :: g1 :: gs)) with (g' :: map gtail (g1 :: gs)) by reflexivity.
        rewrite (zip_cons g') by discriminate. reflexivity. }
    destruct E as [xs [E1 E2]]. rewrite E1. cbn [gmap]. rewrite E2. reflexivity.
Qed.

End Zip.

(* ---- one machine *)

Section One.
Context {A K : Type} (dump : A -> res K) (unpack : K -> res A).

Lemma wstep_same m m' : wstep dump m = Some m' -> out m' = out m /\ stat m' = stat m.
Proof.
  unfold wstep. destruct (tasks m); [discriminate|]. destruct (ended m); [intros H; injection H as <-; split; reflexivity|].
  destruct (left m); intros H; injection H as <-; split; reflexivity.
Qed.

Lemma mstep_out m m' : mstep unpack m = Some m' ->
  stat m = Running /\ (out m' = out m \/ exists a, out m' = out m ++ [a] /\ stat m' = Running).
Proof.
  unfold mstep. destruct (stat m) eqn:ES; try discriminate. intros H. split; [reflexivity|].
  destruct (Nat.leb (sent m) (rcvd m)); [injection H as <-; left; reflexivity|].
  assert (P : forall rest st x, out (process m rest st x) = out m \/
              exists a, out (process m rest st x) = out m ++ [a] /\ stat (process m rest st x) = Running).
  { intros rest st [a|e]; cbn; [right; exists a; split; [reflexivity|exact ES]|left; reflexivity]. }
  destruct (find_stored (rcvd m) (stored m)) as [x|].
  - injection H as <-. apply P.
  - destruct (negb (avail m)); [injection H as <-; left; reflexivity|].
    destruct (results m) as [|[i p] rest]; [discriminate|].
    destruct p as [kk|e|].
    + destruct (unpack kk) as [a|e]; [|injection H as <-; left; reflexivity].
      destruct (Nat.eqb i (rcvd m)); injection H as <-; [exact (P rest (stored m) (inl a))|left; reflexivity].
    + destruct (Nat.eqb i (rcvd m)); injection H as <-; [exact (P rest (stored m) (inr e))|left; reflexivity].
    + injection H as <-. left. reflexivity.
Qed.

End One.

(* ---- all of them *)

Lemma list_sum_set l i q : nth_error l i = Some q -> list_sum (list_set l i (S q)) = S (list_sum l).
Proof.
  revert i. induction l as [|a l IH]; intros [|i] H; try discriminate.
  - injection H as ->. reflexivity.
  - cbn [list_set]. change (a + list_sum (list_set l i (S q)) = S (a + list_sum l)). rewrite (IH i H). lia.
Qed.

Lemma nth_error_ex {A} (l : list A) i : i < length l -> exists a, nth_error l i = Some a.
Proof. intros H. destruct (nth_error l i) as [a|] eqn:E; [eauto|]. apply nth_error_None in E. lia. Qed.

Lemma nth_error_lt {A} (l : list A) i a : nth_error l i = Some a -> i < length l.
Proof. intros H. apply nth_error_Some. congruence. Qed.

Lemma firstn_snoc {A} (l : list A) i a : nth_error l i = Some a -> firstn (S i) l = firstn i l ++ [a].
Proof.
  revert i. induction l as [|b l IH]; intros [|i] H; cbn in *; try discriminate; [now injection H as ->|].
  rewrite (IH i H). reflexivity.
Qed.

Lemma split_at {A} (l : list A) i a : nth_error l i = Some a -> l = firstn i l ++ a :: skipn (S i) l.
Proof.
  revert i. induction l as [|b l IH]; intros [|i] H; cbn in *; try discriminate; [now injection H as ->|].
  f_equal. now apply IH.
Qed.

Section Many.
Context {A K : Type} (dump : A -> res K) (unpack : K -> res A) (longest : bool) (k : nat) (gs : list (gen A)).
Context (HK : 0 < k) (HA : Forall (fun g => Forall (arrives dump unpack) (items g)) gs).
Context (L : list (list (option A))) (E : option exn).

Definition gend := fix gend (g : gen A) : option exn :=
  match g with GStop => None | GRaise x => Some x | GCons _ t => gend t end.
Lemma gives_always g : gives g (items g) (gend g).
Proof. induction g; constructor; assumption. Qed.

Definition mach_inv (r t i : nat) (g : gen A) (d : bool) (q : nat) (m : machine A K) : Prop :=
  runs_to dump unpack (start k g) q m /\
  if d then gdrop r g = GStop
  else stat m = Running /\ length (out m) = r + (if i <? t then 1 else 0).

Definition linked (r t : nat) (ms : list (machine A K)) (ds : list bool) (ns : list nat) : Prop :=
  length ms = length gs /\ length ds = length gs /\ length ns = length gs /\
  forall i g m d q, nth_error gs i = Some g -> nth_error ms i = Some m -> nth_error ds i = Some d -> nth_error ns i = Some q ->
    mach_inv r t i g d q m.

Definition ran (ms : list (machine A K)) (ns : list nat) : Prop :=
  length ms = length gs /\ length ns = length gs /\
  forall i g m q, nth_error gs i = Some g -> nth_error ms i = Some m -> nth_error ns i = Some q -> runs_to dump unpack (start k g) q m.

Lemma linked_ran r t ms ds ns : linked r t ms ds ns -> ran ms ns.
Proof.
  intros [H1 [H2 [H3 H]]]. split; [exact H1|split; [exact H3|]]. intros i g m q G M Q.
  destruct (nth_error_ex ds i) as [d D]. { rewrite H2. exact (nth_error_lt _ _ _ G). }
  exact (proj1 (H i g m d q G M D Q)).
Qed.

Lemma ran_step ms ns i m m' q : ran ms ns -> nth_error ms i = Some m -> nth_error ns i = Some q ->
  (forall g, nth_error gs i = Some g -> runs_to dump unpack (start k g) (S q) m') -> ran (list_set ms i m') (list_set ns i (S q)).
Proof.
  intros [H1 [H2 H]] M Q S. split; [|split].
  - now rewrite length_list_set.
  - now rewrite length_list_set.
  - intros j g mj qj G Mj Qj. destruct (Nat.eq_dec i j) as [<-|N].
    + rewrite nth_error_list_set_eq in Mj by exact (nth_error_lt _ _ _ M).
      rewrite nth_error_list_set_eq in Qj by exact (nth_error_lt _ _ _ Q). injection Mj as <-. injection Qj as <-. now apply S.
    + rewrite nth_error_list_set_neq in Mj by exact N. rewrite nth_error_list_set_neq in Qj by exact N. eauto.
Qed.

Definition rest_is (r : nat) (done : list (list (option A))) : Prop :=
  exists L', L = done ++ L' /\ gives (zipped longest (map (gdrop r) gs)) L' E.

Inductive minv (n : nat) (s : many A K) : Prop :=
| minv_run ns :
    mstat s = Running -> linked (length (rounds s)) (turn s) (machs s) (dead s) ns -> turn s <= length gs ->
    part s = map (fun g => ghead (gdrop (length (rounds s)) g)) (firstn (turn s) gs) ->
    Forall (fun g => fine longest (gdrop (length (rounds s)) g)) (firstn (turn s) gs) ->
    (longest = false -> Forall (fun d => d = false) (dead s)) ->
    (gs <> [] -> Exists (fun d => d = false) (dead s)) ->
    n <= list_sum ns + (length gs + 1) * length (rounds s) + turn s ->
    rest_is (length (rounds s)) (rounds s) -> minv n s
| minv_end ns :
    mstat s <> Running -> ran (machs s) ns -> rounds s = L ->
    (mstat s = Stopped -> E = None) -> (forall x, mstat s = Raised x -> E = Some x) ->
    n <= list_sum ns + (length gs + 1) * length (rounds s) + length gs + 1 -> minv n s.

Lemma minv_begin : gives (zipped longest gs) L E -> minv 0 (begin k gs).
Proof.
  intros HG. apply (minv_run _ _ (repeat 0 (length gs))); cbn; try reflexivity; try lia; try constructor.
  - now rewrite map_length.
  - split; [now rewrite map_length|]. split; [now rewrite repeat_length|].
    intros i g m d q G M D Q. rewrite nth_error_map, G in M, D. cbn in M, D. injection M as <-. injection D as <-.
    assert (q = 0). { apply (repeat_spec (length gs) 0). exact (nth_error_In _ _ Q). } subst q.
    split; [constructor|]. split; reflexivity.
  - intros _. apply Forall_forall. intros d Hd. apply in_map_iff in Hd as [g [<- _]]. reflexivity.
  - intros H. apply Exists_exists. exists false. split; [|reflexivity]. apply in_map_iff. destruct gs as [|g t]; [congruence|].
    exists g. split; [reflexivity|now left].
  - exists L. split; [reflexivity|]. replace (map (gdrop 0) gs) with gs; [exact HG|]. symmetry. rewrite <- (map_id gs) at 2.
    apply map_ext. intros g. destruct g; reflexivity.
Qed.

Lemma minv_worker n i s s' : minv n s -> worker_step dump i s = Some s' -> minv (S n) s'.
Proof.
  intros HI HS. unfold worker_step in HS. destruct (nth_error (machs s) i) as [m|] eqn:EM; [|discriminate].
  destruct (wstep dump m) as [m'|] eqn:EW; [|discriminate]. injection HS as <-.
  destruct (wstep_same dump m m' EW) as [WO WS].
  destruct HI as [ns H1 H2 H3 H4 H5 H6 H7 H8 H9|ns H1 H2 H3 H4 H5 H6].
  - destruct H2 as [P1 [P2 [P3 P4]]].
    assert (Hi : i < length gs). { rewrite <- P1. exact (nth_error_lt _ _ _ EM). }
    destruct (nth_error_ex ns i) as [q EQ]; [lia|].
    apply (minv_run _ _ (list_set ns i (S q))); cbn; try assumption.
    + split; [now rewrite length_list_set|]. split; [exact P2|]. split; [now rewrite length_list_set|].
      intros j g mj d qj G Mj D Qj. destruct (Nat.eq_dec i j) as [<-|N].
      * rewrite nth_error_list_set_eq in Mj by lia. rewrite nth_error_list_set_eq in Qj by lia. injection Mj as <-. injection Qj as <-.
        destruct (P4 i g m d q G EM D EQ) as [R1 R2]. split; [exact (run_worker _ _ _ _ _ _ R1 EW)|].
        rewrite WO, WS. exact R2.
      * rewrite nth_error_list_set_neq in Mj by exact N. rewrite nth_error_list_set_neq in Qj by exact N. eauto.
    + rewrite list_sum_set by exact EQ. lia.
  - assert (Hi : i < length gs). { rewrite <- (proj1 H2). exact (nth_error_lt _ _ _ EM). }
    destruct (nth_error_ex ns i) as [q EQ]; [destruct H2; lia|].
    apply (minv_end _ _ (list_set ns i (S q))); cbn; try assumption.
    + apply (ran_step _ _ i m m' q H2 EM EQ). intros g G. exact (run_worker _ _ _ _ _ _ (proj2 (proj2 H2) i g m q G EM EQ) EW).
    + rewrite list_sum_set by exact EQ. lia.
Qed.

Lemma arrives_at i g : nth_error gs i = Some g -> Forall (arrives dump unpack) (items g).
Proof. intros G. rewrite Forall_forall in HA. exact (HA g (nth_error_In _ _ G)). Qed.

Lemma map_split (f : gen A -> gen A) i g : nth_error gs i = Some g -> map f gs = map f (firstn i gs) ++ f g :: map f (skipn (S i) gs).
Proof. intros G. rewrite (split_at gs i g G) at 1. rewrite map_app. reflexivity. Qed.

Lemma linked_step r ms ds ns t m m' q d' : linked r t ms ds ns -> nth_error ms t = Some m -> nth_error ns t = Some q -> t < length gs ->
  (forall g, nth_error gs t = Some g -> mach_inv r (S t) t g d' (S q) m') ->
  linked r (S t) (list_set ms t m') (list_set ds t d') (list_set ns t (S q)).
Proof.
  intros [P1 [P2 [P3 P4]]] EM EQ Ht HM. split; [now rewrite length_list_set|]. split; [now rewrite length_list_set|].
  split; [now rewrite length_list_set|]. intros j g mj d qj G Mj D Qj. destruct (Nat.eq_dec t j) as [<-|N].
  - rewrite nth_error_list_set_eq in Mj by lia. rewrite nth_error_list_set_eq in Qj by lia. rewrite nth_error_list_set_eq in D by lia.
    injection Mj as <-. injection Qj as <-. injection D as <-. now apply HM.
  - rewrite nth_error_list_set_neq in Mj by exact N. rewrite nth_error_list_set_neq in Qj by exact N.
    rewrite nth_error_list_set_neq in D by exact N. destruct (P4 j g mj d qj G Mj D Qj) as [R1 R2]. split; [exact R1|].
    destruct d; [exact R2|]. destruct R2 as [R2 R3]. split; [exact R2|]. rewrite R3. f_equal.
    destruct (Nat.ltb_spec j t), (Nat.ltb_spec j (S t)); lia.
Qed.

Lemma set_same {B} (l : list B) i b : nth_error l i = Some b -> list_set l i b = l.
Proof. revert i. induction l as [|a l IH]; intros [|i] H; cbn in *; try discriminate; [now injection H as ->|]. now rewrite IH. Qed.

Lemma minv_main n s s' : minv n s -> main_step unpack longest s = Some s' -> minv (S n) s'.
Proof.
  intros HI HS. unfold main_step in HS.
  destruct HI as [ns H1 H2 H3 H4 H5 H6 H7 H8 H9|ns H1 H2 H3 H4 H5 H6].
  2: { destruct (mstat s); [congruence|discriminate|discriminate]. }
  rewrite H1 in HS. pose proof H2 as [P1 [P2 [P3 P4]]]. set (r := length (rounds s)) in *. set (t := turn s) in *.
  destruct (nth_error (machs s) t) as [m|] eqn:EM.
  - assert (Ht : t < length gs). { rewrite <- P1. exact (nth_error_lt _ _ _ EM). }
    destruct (nth_error_ex gs t) as [g EG]; [lia|]. destruct (nth_error_ex (dead s) t) as [d ED]; [lia|].
    destruct (nth_error_ex ns t) as [q EQ]; [lia|]. destruct (P4 t g m d q EG EM ED EQ) as [R1 R2].
    rewrite (nth_error_nth _ _ _ ED) in HS. destruct d.
    + injection HS as <-. apply (minv_run _ _ ns); cbn [mstat machs dead turn part rounds]; try assumption; try reflexivity; fold r; fold t.
      * split; [exact P1|]. split; [exact P2|]. split; [exact P3|]. intros j gj mj dj qj G Mj D Qj.
        destruct (P4 j gj mj dj qj G Mj D Qj) as [S1 S2]. split; [exact S1|]. destruct dj; [exact S2|].
        destruct S2 as [S2 S3]. split; [exact S2|]. rewrite S3. f_equal.
        assert (j <> t) by (intros ->; congruence). destruct (Nat.ltb_spec j t), (Nat.ltb_spec j (S t)); lia.
      * rewrite (firstn_snoc gs t g EG), map_app, <- H4. cbn [map]. rewrite R2. reflexivity.
      * rewrite (firstn_snoc gs t g EG). apply Forall_app. split; [exact H5|]. constructor; [|constructor]. rewrite R2.
        destruct longest eqn:EL; [intros x; discriminate|].
        exfalso. pose proof (H6 eq_refl) as F. rewrite Forall_forall in F. discriminate (F true (nth_error_In _ _ ED)).
      * lia.
    + destruct R2 as [R2 R3]. rewrite Nat.ltb_irrefl, Nat.add_0_r in R3.
      destruct (mstep unpack m) as [m'|] eqn:ES; [|discriminate].
      pose proof (run_main _ _ _ _ _ _ R1 ES) as R4.
      destruct (worker_delivers dump unpack k (items g) (gend g) g (S q) m' HK (gives_always g) (arrives_at t g EG) R4)
        as [[rest W1] [W2 [W3 [_ _]]]].
      destruct (mstep_out unpack m m' ES) as [_ MO].
      assert (PRE : forall x, zipped longest (map (gdrop r) gs) = x -> forall L' : list (list (option A)), gives x L' E -> gives (zipped longest (map (gdrop r) gs)) L' E) by (intros x ->; auto).
      clear PRE.
      assert (FP : Forall (fine longest) (map (gdrop r) (firstn t gs))) by (apply Forall_map; exact H5).
      assert (RS : ran (list_set (machs s) t m') (list_set ns t (S q))).
      { apply (ran_step _ _ t m m' q (linked_ran _ _ _ _ _ H2) EM EQ). intros g' G'. rewrite EG in G'. injection G' as <-. exact R4. }
      destruct (stat m') as [| |x] eqn:ST.
      * destruct MO as [MO|[a [MO _]]].
        -- rewrite MO in HS. replace (nth_error (out m) (length (out m))) with (@None A) in HS by (symmetry; apply nth_error_None; lia).
           injection HS as <-. apply (minv_run _ _ (list_set ns t (S q))); cbn [mstat machs dead turn part rounds]; fold r; fold t; try assumption; try reflexivity.
           ++ split; [now rewrite length_list_set|]. split; [exact P2|]. split; [now rewrite length_list_set|].
              intros j gj mj dj qj G Mj D Qj. destruct (Nat.eq_dec t j) as [<-|N].
              ** rewrite nth_error_list_set_eq in Mj by lia. rewrite nth_error_list_set_eq in Qj by lia.
                 rewrite EG in G. rewrite ED in D. injection G as <-. injection D as <-.
                 injection Mj as <-. injection Qj as <-. split; [exact R4|]. split; [exact ST|].
                 rewrite MO, R3, Nat.ltb_irrefl. lia.
              ** rewrite nth_error_list_set_neq in Mj by exact N. rewrite nth_error_list_set_neq in Qj by exact N. eauto.
           ++ rewrite list_sum_set by exact EQ. lia.
        -- rewrite MO, nth_error_app2, Nat.sub_diag in HS by lia. cbn in HS. injection HS as <-.
           assert (GI : exists g', gdrop r g = GCons a g').
           { apply (gives_item g (items g) (gend g)); [apply gives_always|]. rewrite W1, MO, <- app_assoc, nth_error_app2 by lia.
             rewrite R3, Nat.sub_diag. reflexivity. }
           destruct GI as [g' GI].
           apply (minv_run _ _ (list_set ns t (S q))); cbn [mstat machs dead turn part rounds]; fold r; fold t; try assumption; try reflexivity.
           ++ rewrite <- (set_same (dead s) t false ED). apply (linked_step _ _ _ _ _ m); try assumption.
              intros g0 G0. rewrite EG in G0. injection G0 as <-. split; [exact R4|]. split; [exact ST|].
              rewrite MO, app_length. cbn [length]. destruct (Nat.ltb_spec t (S t)); lia.
           ++ rewrite (firstn_snoc gs t g EG), map_app, <- H4. cbn [map]. rewrite GI. reflexivity.
           ++ rewrite (firstn_snoc gs t g EG). apply Forall_app. split; [exact H5|]. constructor; [|constructor]. rewrite GI.
              destruct longest; [intros x; discriminate|]. red. eauto.
           ++ rewrite list_sum_set by exact EQ. lia.
      * destruct (W2 eq_refl) as [O1 O2].
        assert (MO' : out m' = out m) by (destruct MO as [MO|[a [_ MO]]]; congruence).
        assert (GS : gdrop r g = GStop).
        { apply (gives_ended g (items g)); [rewrite <- O2; apply gives_always|]. rewrite <- O1, MO', R3. lia. }
        destruct (bool_dec longest true) as [EL|EL]; [|apply not_true_is_false in EL]; rewrite EL in HS.
        -- destruct (forallb (fun b => b) (list_set (dead s) t true)) eqn:EF; injection HS as <-.
           ++ destruct H9 as [L' [HL HG]]. rewrite EL, zipped_stop_long in HG.
              2: { apply Forall_map, Forall_forall. intros gj Hj. apply In_nth_error in Hj as [j Gj]. destruct (Nat.eq_dec t j) as [<-|N].
                   { rewrite EG in Gj. injection Gj as <-. exact GS. }
                   pose proof (nth_error_lt _ _ _ Gj) as Lj.
                   destruct (nth_error_ex (machs s) j) as [mj Mj]; [lia|]. destruct (nth_error_ex (dead s) j) as [dj Dj]; [lia|].
                   destruct (nth_error_ex ns j) as [qj Qj]; [lia|]. rewrite forallb_forall in EF.
                   assert (dj = true).
                   { apply EF. apply (nth_error_In _ j). now rewrite nth_error_list_set_neq by exact N. }
                   subst dj. exact (proj2 (P4 j gj mj true qj Gj Mj Dj Qj)). }
              apply gives_stop_only in HG as [-> HE]. rewrite app_nil_r in HL.
              apply (minv_end _ _ (list_set ns t (S q))); cbn [mstat machs dead turn part rounds]; fold r; try assumption; try discriminate; try reflexivity; try (intros _; exact HE).
              ** symmetry. exact HL.
              ** rewrite list_sum_set by exact EQ. lia.
           ++ apply (minv_run _ _ (list_set ns t (S q))); cbn [mstat machs dead turn part rounds]; fold r; fold t; try assumption; try reflexivity.
              ** apply (linked_step _ _ _ _ _ m); try assumption. intros g0 G0. rewrite EG in G0. injection G0 as <-. split; [exact R4|exact GS].
              ** rewrite (firstn_snoc gs t g EG), map_app, <- H4. cbn [map]. rewrite GS. reflexivity.
              ** rewrite (firstn_snoc gs t g EG). apply Forall_app. split; [exact H5|]. constructor; [|constructor]. rewrite GS, EL. intros x. discriminate.
              ** intros X. congruence.
              ** intros _. apply Exists_exists. assert (X : existsb negb (list_set (dead s) t true) = true).
                 { clear - EF. revert EF. generalize (list_set (dead s) t true). intros l. induction l as [|[] l IH]; cbn; auto; discriminate. }
                 apply existsb_exists in X as [d [D1 D2]]. exists d. split; [exact D1|]. now destruct d.
              ** rewrite list_sum_set by exact EQ. lia.
        -- injection HS as <-. destruct H9 as [L' [HL HG]]. rewrite EL in FP. rewrite EL, (map_split (gdrop r) t g EG), GS, zipped_stop_short in HG by exact FP.
           apply gives_stop_only in HG as [-> HE]. rewrite app_nil_r in HL.
           apply (minv_end _ _ (list_set ns t (S q))); cbn [mstat machs dead turn part rounds]; fold r; try assumption; try discriminate; try reflexivity; try (intros _; exact HE).
           ++ symmetry. exact HL.
           ++ rewrite list_sum_set by exact EQ. lia.
      * injection HS as <-. destruct (W3 x eq_refl) as [O1 O2].
        assert (MO' : out m' = out m) by (destruct MO as [MO|[a [_ MO]]]; congruence).
        assert (GR : gdrop r g = GRaise x).
        { apply (gives_raised g (items g)); [rewrite <- O2; apply gives_always|]. rewrite <- O1, MO', R3. lia. }
        destruct H9 as [L' [HL HG]]. rewrite (map_split (gdrop r) t g EG), GR, zipped_raise in HG by exact FP.
        apply gives_raise_only in HG as [-> HE]. rewrite app_nil_r in HL.
        apply (minv_end _ _ (list_set ns t (S q))); cbn [mstat machs dead turn part rounds]; fold r; try assumption; try discriminate.
        -- symmetry. exact HL.
        -- intros y Y. injection Y as <-. exact HE.
        -- rewrite list_sum_set by exact EQ. lia.
  - apply nth_error_None in EM. assert (Ht : t = length gs) by lia. rewrite Ht, firstn_all in H4, H5.
    destruct (machs s) as [|m0 ms0] eqn:EMS.
    + injection HS as <-. assert (GN : gs = []) by (destruct gs; [reflexivity|discriminate]).
      destruct H9 as [L' [HL HG]]. rewrite GN in HG. unfold zipped in HG. cbn in HG.
      assert (HE : L' = [] /\ E = None) by (destruct longest; now apply gives_stop_only in HG). destruct HE as [-> HE].
      rewrite app_nil_r in HL. apply (minv_end _ _ ns); cbn [mstat machs dead turn part rounds]; fold r; try discriminate; try reflexivity; try (intros _; exact HE).
      * apply (linked_ran r t [] (dead s)). exact H2.
      * symmetry. exact HL.
      * lia.
    + injection HS as <-.
      assert (GN : gs <> []) by (intros G; rewrite G in P1; discriminate).
      assert (EX : Exists has_item (map (gdrop r) gs)).
      { apply Exists_exists in H7 as [d [D1 ->]]; [|exact GN]. apply In_nth_error in D1 as [j Dj]. pose proof (nth_error_lt _ _ _ Dj) as Lj.
        destruct (nth_error_ex gs j) as [gj Gj]; [lia|]. destruct (nth_error_ex (m0 :: ms0) j) as [mj Mj]; [lia|].
        destruct (nth_error_ex ns j) as [qj Qj]; [lia|]. destruct (P4 j gj mj false qj Gj Mj Dj Qj) as [Q1 [Q2 Q3]].
        destruct (Nat.ltb_spec j t) as [_|X]; [|lia].
        apply Exists_exists. exists (gdrop r gj). split; [apply in_map; exact (nth_error_In _ _ Gj)|].
        destruct (worker_delivers dump unpack k (items gj) (gend gj) gj qj mj HK (gives_always gj) (arrives_at j gj Gj) Q1) as [[rest W1] _].
        destruct (nth_error_ex (out mj) r) as [a Ha]; [lia|]. exists a. apply (gives_item gj (items gj) (gend gj)); [apply gives_always|].
        rewrite W1, nth_error_app1 by lia. exact Ha. }
      destruct H9 as [L' [HL HG]]. rewrite zipped_cons in HG; [|apply Forall_map; exact H5|exact EX].
      apply gives_cons_only in HG as [l' [-> HG']]. rewrite map_map in HL, HG'.
      assert (LR : length (rounds s ++ [part s]) = S r) by (rewrite app_length; cbn; fold r; lia).
      apply (minv_run _ _ ns); cbn [mstat machs dead turn part rounds]; try rewrite LR; try reflexivity; try assumption; try lia; try constructor.
      * exact P1.
      * split; [exact P2|]. split; [exact P3|]. intros j gj mj dj qj G Mj D Qj. destruct (P4 j gj mj dj qj G Mj D Qj) as [Q1 Q2].
        split; [exact Q1|]. destruct dj.
        -- rewrite <- gtail_gdrop, Q2. reflexivity.
        -- destruct Q2 as [Q2 Q3]. split; [exact Q2|]. rewrite Q3.
           pose proof (nth_error_lt _ _ _ G). destruct (Nat.ltb_spec j t), (Nat.ltb_spec j 0); lia.
      * exists l'. split; [rewrite HL, <- app_assoc, H4; reflexivity|].
        replace (map (gdrop (S r)) gs) with (map (fun x => gtail (gdrop r x)) gs); [exact HG'|].
        apply map_ext. intros x. apply gtail_gdrop.
Qed.

Lemma minv_goes n s : gives (zipped longest gs) L E -> goes_to dump unpack longest (begin k gs) n s -> minv n s.
Proof.
  intros HG HR. induction HR as [|i n s1 s2 _ IH HS|n s1 s2 _ IH HS].
  - now apply minv_begin.
  - exact (minv_worker _ _ _ _ IH HS).
  - exact (minv_main _ _ _ IH HS).
Qed.

Lemma ran_sum ms ns : ran ms ns -> list_sum ns <= list_sum (map (fun g => 2 * (length (items g) + k) + 4) gs).
Proof.
  intros [R1 [R2 R3]].
  assert (B : forall i g q, nth_error gs i = Some g -> nth_error ns i = Some q -> q <= 2 * (length (items g) + k) + 4).
  { intros i g q G Q. destruct (nth_error_ex ms i) as [m M]. { rewrite R1. exact (nth_error_lt _ _ _ G). }
    exact (proj2 (proj2 (proj2 (proj2 (worker_delivers dump unpack k (items g) (gend g) g q m HK (gives_always g) (arrives_at i g G) (R3 i g m q G M Q)))))). }
  clear R1 R3 ms HA. revert ns R2 B. induction gs as [|g t IH]; intros [|q ns] R2 B; try discriminate; [cbn; lia|].
  change (q + list_sum ns <= (2 * (length (items g) + k) + 4) + list_sum (map (fun g => 2 * (length (items g) + k) + 4) t)).
  specialize (IH ns). pose proof (B 0 g q eq_refl eq_refl). cbn in R2.
  assert (list_sum ns <= list_sum (map (fun g => 2 * (length (items g) + k) + 4) t)); [|lia].
  apply IH; [lia|]. intros i g' q' G Q. exact (B (S i) g' q' G Q).
Qed.

Lemma minv_progress n s : minv n s -> mstat s = Running ->
  (exists i, worker_step dump i s <> None) \/ main_step unpack longest s <> None.
Proof.
  intros [ns H1 H2 H3 H4 H5 H6 H7 H8 H9|ns H1 H2 H3 H4 H5 H6] HR; [|congruence]. pose proof H2 as [P1 [P2 [P3 P4]]].
  destruct (nth_error (machs s) (turn s)) as [m|] eqn:EM.
  - pose proof (nth_error_lt _ _ _ EM) as Ht.
    destruct (nth_error_ex gs (turn s)) as [g EG]; [lia|]. destruct (nth_error_ex (dead s) (turn s)) as [d ED]; [lia|].
    destruct (nth_error_ex ns (turn s)) as [q EQ]; [lia|]. destruct (P4 _ g m d q EG EM ED EQ) as [R1 R2]. destruct d.
    + right. unfold main_step. rewrite HR, EM, (nth_error_nth _ _ _ ED). discriminate.
    + destruct R2 as [R2 R3].
      destruct (worker_delivers dump unpack k (items g) (gend g) g q m HK (gives_always g) (arrives_at _ g EG) R1) as [_ [_ [_ [W _]]]].
      destruct (W R2) as [W1|W1].
      * left. exists (turn s). unfold worker_step. rewrite EM. destruct (wstep dump m); congruence.
      * right. unfold main_step. rewrite HR, EM, (nth_error_nth _ _ _ ED). destruct (mstep unpack m) as [m'|]; [|congruence]. cbn zeta.
        destruct (stat m'); [destruct (nth_error (out m') (length (out m)))| |]; try discriminate.
        destruct longest; [|discriminate]. destruct (forallb _ _); discriminate.
  - right. unfold main_step. rewrite HR, EM. destruct (machs s); discriminate.
Qed.

End Many.

Section Theorem_.
Context {A K : Type} (dump : A -> res K) (unpack : K -> res A).

Theorem many_deliver longest k gs ls L E n s : 0 < k ->
  Forall2 (fun g l => exists e, gives g l e) gs ls -> Forall (Forall (arrives dump unpack)) ls ->
  gives (zipped longest gs) L E -> goes_to dump unpack longest (begin k gs) n s ->
  (exists rest, L = rounds s ++ rest) /\
  (mstat s = Stopped -> rounds s = L /\ E = None) /\ (forall x, mstat s = Raised x -> rounds s = L /\ E = Some x) /\
  (mstat s = Running -> (exists i, worker_step dump i s <> None) \/ main_step unpack longest s <> None) /\
  n <= list_sum (map (fun l => 2 * (length l + k) + 4) ls) + (length gs + 1) * (length L + 1).
Proof.
  intros HK HG HF HZ HR.
  assert (HL : ls = map (@items A) gs).
  { clear HF HZ HR. induction HG as [|g l gs ls [e He] _ IH]; [reflexivity|]. cbn. rewrite IH, (gives_items g l e He). reflexivity. }
  assert (HA : Forall (fun g => Forall (arrives dump unpack) (items g)) gs) by (rewrite HL in HF; rewrite Forall_map in HF; exact HF).
  pose proof (minv_goes dump unpack longest k gs HK HA L E n s HZ HR) as HI.
  assert (HP : exists rest, L = rounds s ++ rest).
  { destruct HI as [ns H1 H2 H3 H4 H5 H6 H7 H8 [L' [H9 _]]|ns H1 H2 H3 H4 H5 H6]; [eauto|]. exists []. now rewrite app_nil_r. }
  split; [exact HP|]. split; [|split; [|split]].
  - intros HS. destruct HI as [ns H1|ns H1 H2 H3 H4 H5 H6]; [congruence|]. split; [exact H3|exact (H4 HS)].
  - intros x HS. destruct HI as [ns H1|ns H1 H2 H3 H4 H5 H6]; [congruence|]. split; [exact H3|exact (H5 x HS)].
  - intros HS. exact (minv_progress dump unpack longest k gs HK HA L E n s HI HS).
  - destruct HP as [rest HP]. assert (LL : length (rounds s) <= length L) by (rewrite HP, app_length; lia).
    assert (MUL : (length gs + 1) * length (rounds s) <= (length gs + 1) * length L) by now apply Nat.mul_le_mono_l.
    rewrite HL, map_map. rewrite Nat.mul_add_distr_l, Nat.mul_1_r.
    destruct HI as [ns H1 H2 H3 H4 H5 H6 H7 H8 H9|ns H1 H2 H3 H4 H5 H6].
    + pose proof (ran_sum dump unpack k gs HK HA _ _ (linked_ran dump unpack k gs _ _ _ _ _ H2)). lia.
    + pose proof (ran_sum dump unpack k gs HK HA _ _ H2). lia.
Qed.

End Theorem_.

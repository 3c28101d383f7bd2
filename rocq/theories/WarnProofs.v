(** Proofs about warnings (C72). *)

From Coq Require Import String List ZArith Bool Lia Permutation.
From Verif Require Import Py Meta Named Gather Dispatch Warn WarnSpec.
Import ListNotations.
Open Scope string_scope.
Open Scope list_scope.
Open Scope nat_scope.

Lemma rank_inj a b : rank a = rank b -> a = b.
Proof. destruct a, b; intros H; try reflexivity; discriminate. Qed.
Lemma cat_eqb_iff a b : cat_eqb a b = true <-> a = b.
Proof. unfold cat_eqb. rewrite Nat.eqb_eq. split; [apply rank_inj|congruence]. Qed.
Lemma issub_iff a b : issub a b = true <-> is_a a b.
Proof.
  split.
  - destruct a, b; intros H; try discriminate H; constructor.
  - intros H; destruct H; try reflexivity; destruct c; reflexivity.
Qed.

Lemma matches_iff c m f : matches c m f = true <-> is_for f c m.
Proof.
  unfold matches, is_for. rewrite andb_true_iff, issub_iff. destruct (f_module f) as [x|].
  - rewrite String.eqb_eq. split; intros [H1 H2]; (split; [exact H1|]); [right; congruence|destruct H2; congruence].
  - split; intros [H1 H2]; auto.
Qed.
Lemma matches_false c m f : matches c m f = false <-> ~ is_for f c m.
Proof. rewrite <- matches_iff. destruct (matches c m f); split; congruence. Qed.

Lemma find_action_iff l c m a : find_action l c m = a <-> decides l c m a.
Proof.
  split.
  - intros <-. induction l as [|f l IH]; cbn [find_action].
    + right. split; [reflexivity|]. intros g [].
    + destruct (matches c m f) eqn:E.
      * left. exists [], f, l. split; [reflexivity|]. split; [now apply matches_iff|]. split; [reflexivity|]. intros g [].
      * apply matches_false in E. destruct IH as [(pre & g & post & E1 & E2 & E3 & E4)|[E1 E2]].
        -- left. exists (f :: pre), g, post. split; [rewrite E1 at 1; reflexivity|]. split; [exact E2|]. split; [exact E3|]. intros h [<-|H]; auto.
        -- right. split; [exact E1|]. intros h [<-|H]; auto.
  - intros [(pre & f & post & -> & H1 & H2 & H3)|[-> H]].
    + induction pre as [|g pre IH]; cbn [app find_action].
      * apply matches_iff in H1. rewrite H1. exact H2.
      * assert (E : matches c m g = false) by (apply matches_false, H3; now left). rewrite E. apply IH. intros h Hh. apply H3. now right.
    + induction l as [|g l IH]; [reflexivity|]. cbn [find_action]. assert (E : matches c m g = false) by (apply matches_false, H; now left). rewrite E.
      apply IH. intros h Hh. apply H. now right.
Qed.

(* ---------- emit ---------- *)

Lemma emit_same st m t c n : filters (fst (emit st m t c n)) = filters st /\ version (fst (emit st m t c n)) = version st.
Proof.
  unfold emit. cbv zeta. destruct (existsb _ _); [split; reflexivity|].
  destruct (find_action _ _ _); try (split; reflexivity); destruct (existsb _ _); split; reflexivity.
Qed.

Definition keys_of (st : wstate) (m : string) : list key :=
  if Nat.eqb (r_version (registries st m)) (version st) then r_keys (registries st m) else [].

Lemma key_eqb_iff a b : key_eqb a b = true <-> a = b.
Proof.
  destruct a as [[t c] n], b as [[t' c'] n']. unfold key_eqb. rewrite !andb_true_iff, String.eqb_eq, cat_eqb_iff, Nat.eqb_eq.
  split; [intros [[-> ->] ->]; reflexivity|]. intros H. injection H as -> -> ->. auto.
Qed.
Lemma existsb_key k l : existsb (key_eqb k) l = true <-> In k l.
Proof.
  rewrite existsb_exists. split.
  - intros (x & Hx & E). apply key_eqb_iff in E as ->. exact Hx.
  - intros H. exists k. split; [exact H|]. now apply key_eqb_iff.
Qed.

Definition sane (st : wstate) : Prop := forall m, r_keys (registries st m) = [] \/ r_version (registries st m) <= version st.

Lemma keys_upd fs v rs m r o m' :
  keys_of (mkW fs v (upd_reg rs m r) o) m' = if String.eqb m' m then (if Nat.eqb (r_version r) v then r_keys r else []) else
    (if Nat.eqb (r_version (rs m')) v then r_keys (rs m') else []).
Proof. unfold keys_of, upd_reg. cbn [registries version]. destruct (String.eqb m' m); reflexivity. Qed.

(** What the registries hold after a warning: only keys with its class are added. *)
Lemma emit_keys st m t c n m' k : In k (keys_of (fst (emit st m t c n)) m') ->
  In k (keys_of st m') \/ (m' = m /\ snd (fst k) = c).
Proof.
  unfold emit. cbv zeta. fold (keys_of st m). set (ks := keys_of st m).
  assert (G : forall l o, (forall x, In x l -> In x ks \/ snd (fst x) = c) ->
    In k (keys_of (mkW (filters st) (version st) (upd_reg (registries st) m (mkR (version st) l)) o) m') -> In k (keys_of st m') \/ (m' = m /\ snd (fst k) = c)).
  { intros l o H. rewrite keys_upd. destruct (String.eqb m' m) eqn:E.
    - apply String.eqb_eq in E as ->. cbn [r_version r_keys]. rewrite Nat.eqb_refl. intros Hk. destruct (H _ Hk); auto.
    - intros Hk. left. exact Hk. }
  destruct (existsb _ ks); [apply G; auto|].
  assert (A : forall x, In x ((t, c, n) :: ks) -> In x ks \/ snd (fst x) = c) by (intros x [<-|H]; auto).
  destruct (find_action _ _ _); try (apply G; auto; fail).
  - destruct (existsb _ _); apply G; auto. intros x [<-|H]; auto.
  - destruct (existsb _ _); apply G; auto.
Qed.

Lemma emit_keeps st m t c n m' k : In k (keys_of st m') -> In k (keys_of (fst (emit st m t c n)) m').
Proof.
  unfold emit. cbv zeta. fold (keys_of st m). set (ks := keys_of st m).
  assert (G : forall l o, (forall x, In x ks -> In x l) -> In k (keys_of st m') ->
    In k (keys_of (mkW (filters st) (version st) (upd_reg (registries st) m (mkR (version st) l)) o) m')).
  { intros l o H. rewrite keys_upd. destruct (String.eqb m' m) eqn:E.
    - apply String.eqb_eq in E as ->. cbn [r_version r_keys]. rewrite Nat.eqb_refl. intros Hk. apply H. exact Hk.
    - intros Hk. exact Hk. }
  destruct (existsb _ ks); [apply G; auto|].
  destruct (find_action _ _ _); try (apply G; cbn [In]; auto; fail); destruct (existsb _ _); apply G; cbn [In]; auto.
Qed.

Lemma emit_default st m t c n : find_action (filters st) c m = ADefault ->
  let '(st', o) := emit st m t c n in
  In (t, c, n) (keys_of st' m) /\ (In (t, c, n) (keys_of st m) -> o = Silent) /\ (~ In (t, c, n) (keys_of st m) -> o = Shown).
Proof.
  intros H. unfold emit. cbv zeta. fold (keys_of st m). destruct (existsb (key_eqb (t, c, n)) (keys_of st m)) eqn:E.
  - apply existsb_key in E. rewrite keys_upd, String.eqb_refl. cbn [r_version r_keys]. rewrite Nat.eqb_refl. split; [exact E|]. split; [reflexivity|]. intros N. contradiction.
  - rewrite H. rewrite keys_upd, String.eqb_refl. cbn [r_version r_keys]. rewrite Nat.eqb_refl. split; [now left|]. split; [|reflexivity].
    intros I. apply existsb_key in I. congruence.
Qed.

(** A warning is added to the registry only where it is registered under the same text and line, if the action is "default" for its class. *)
Lemma emit_keys_default st m t c n m' t' n' : find_action (filters st) c m = ADefault ->
  In (t', c, n') (keys_of (fst (emit st m t c n)) m') -> In (t', c, n') (keys_of st m') \/ (m' = m /\ t' = t /\ n' = n).
Proof.
  intros H. unfold emit. cbv zeta. fold (keys_of st m). destruct (existsb _ _); cbn [fst].
  - rewrite keys_upd. destruct (String.eqb m' m) eqn:E; [|now left]. apply String.eqb_eq in E as ->. cbn [r_version r_keys]. rewrite Nat.eqb_refl. now left.
  - rewrite H. cbn [fst]. rewrite keys_upd. destruct (String.eqb m' m) eqn:E; [|now left]. apply String.eqb_eq in E as ->. cbn [r_version r_keys].
    rewrite Nat.eqb_refl. intros [K|K]; [right; injection K as <- <-; auto|now left].
Qed.

Lemma emit_silent st m t c n : find_action (filters st) c m = AIgnore -> snd (emit st m t c n) = Silent.
Proof. intros H. unfold emit. cbv zeta. destruct (existsb _ _); [reflexivity|]. rewrite H. reflexivity. Qed.

Lemma emit_raises st m t c n : find_action (filters st) c m = AError -> ~ In (t, c, n) (keys_of st m) -> snd (emit st m t c n) = Raised.
Proof.
  intros H K. unfold emit. cbv zeta. fold (keys_of st m). destruct (existsb _ _) eqn:E; [apply existsb_key in E; contradiction|]. rewrite H. reflexivity.
Qed.

Lemma emit_sane st m t c n : sane st -> sane (fst (emit st m t c n)).
Proof.
  intros H m'. unfold emit. cbv zeta.
  assert (G : forall l o, r_keys (registries (mkW (filters st) (version st) (upd_reg (registries st) m (mkR (version st) l)) o) m') = [] \/
    r_version (registries (mkW (filters st) (version st) (upd_reg (registries st) m (mkR (version st) l)) o) m') <= version st).
  { intros l o. cbn [registries]. unfold upd_reg. destruct (String.eqb m' m); [right; cbn [r_version]; lia|apply H]. }
  destruct (existsb _ _); [apply G|]. destruct (find_action _ _ _); try apply G; destruct (existsb _ _); apply G.
Qed.

Lemma reach_sane st : reach st -> sane st.
Proof.
  induction 1 as [l v|st l R IH|st m t c n R IH].
  - intros m. now left.
  - intros m. cbn [set_filters registries version]. destruct (IH m) as [E|E]; [now left|right; lia].
  - now apply emit_sane.
Qed.

Lemma fresh st l m : sane st -> keys_of (set_filters st l) m = [].
Proof.
  intros H. unfold keys_of. cbn [set_filters registries version]. destruct (H m) as [E|E].
  - rewrite E. destruct (Nat.eqb _ _); reflexivity.
  - destruct (Nat.eqb_spec (r_version (registries st m)) (S (version st))); [lia|reflexivity].
Qed.

(* ---------- sequences of warnings ---------- *)

Lemma play_cons st m t c n r : play st ((m, t, c, n) :: r) =
  (fst (play (fst (emit st m t c n)) r), snd (emit st m t c n) :: snd (play (fst (emit st m t c n)) r)).
Proof. cbn [play]. destruct (emit st m t c n) as [st1 o]. cbn [fst snd]. destruct (play st1 r). reflexivity. Qed.

Lemma play_ignored es : forall st i m t c n, nth_error es i = Some (m, t, c, n) -> (forall m', find_action (filters st) c m' = AIgnore) ->
  nth_error (snd (play st es)) i = Some Silent.
Proof.
  induction es as [|[[[m0 t0] c0] n0] es IH]; intros st i m t c n Hi HA; [now destruct i|]. rewrite play_cons. cbn [snd]. destruct i as [|i].
  - cbn [nth_error] in *. injection Hi as -> -> -> ->. f_equal. apply emit_silent. apply HA.
  - cbn [nth_error] in *. apply (IH _ i m t c n Hi). intros m'. rewrite (proj1 (emit_same st m0 t0 c0 n0)). apply HA.
Qed.

Lemma play_default es : forall st i m t c n, nth_error es i = Some (m, t, c, n) -> (forall m', find_action (filters st) c m' = ADefault) ->
  nth_error (snd (play st es)) i = Some Silent /\ (In (t, c, n) (keys_of st m) \/ In (m, t, c, n) (firstn i es)) \/
  nth_error (snd (play st es)) i = Some Shown /\ ~ (In (t, c, n) (keys_of st m) \/ In (m, t, c, n) (firstn i es)).
Proof.
  induction es as [|[[[m0 t0] c0] n0] es IH]; intros st i m t c n Hi HA; [now destruct i|]. rewrite play_cons. cbn [snd]. destruct i as [|i].
  - cbn [nth_error] in *. injection Hi as -> -> -> ->. pose proof (emit_default st m t c n (HA m)) as D. destruct (emit st m t c n) as [st1 o] eqn:E.
    cbn [snd firstn]. destruct D as (D1 & D2 & D3). destruct (existsb (key_eqb (t, c, n)) (keys_of st m)) eqn:X.
    + apply existsb_key in X. left. rewrite (D2 X). auto.
    + right. assert (N : ~ In (t, c, n) (keys_of st m)) by (rewrite <- existsb_key; congruence). rewrite (D3 N). split; [reflexivity|]. intros [I|[]]. contradiction.
  - cbn [nth_error firstn] in *. assert (HA' : forall m', find_action (filters (fst (emit st m0 t0 c0 n0))) c m' = ADefault).
    { intros m'. rewrite (proj1 (emit_same st m0 t0 c0 n0)). apply HA. }
    specialize (IH (fst (emit st m0 t0 c0 n0)) i m t c n Hi HA').
    assert (K : In (t, c, n) (keys_of (fst (emit st m0 t0 c0 n0)) m) \/ In (m, t, c, n) (firstn i es) <->
                In (t, c, n) (keys_of st m) \/ In (m, t, c, n) ((m0, t0, c0, n0) :: firstn i es)).
    { split.
      - intros [I|I]; [|right; now right]. destruct (emit_keys _ _ _ _ _ _ _ I) as [I'|[-> E]]; [now left|]. cbn [fst snd] in E. subst c0.
        destruct (emit_keys_default st m0 t0 c n0 m0 t n (HA m0) I) as [I'|(_ & -> & ->)]; [now left|right; now left].
      - intros [I|[I|I]]; [left; now apply emit_keeps| |now right]. left. injection I as -> -> -> ->.
        pose proof (emit_default st m t c n (HA m)) as D. destruct (emit st m t c n). now destruct D. }
    rewrite K in IH. exact IH.
Qed.

(* ---------- suppress_warnings ---------- *)

Lemma suppress_filters st b :
  filters (suppress_warnings st b) = mkF (if b then AIgnore else ADefault) CatStream None :: remove1 (mkF (if b then AIgnore else ADefault) CatStream None) (filters st).
Proof. reflexivity. Qed.

Lemma suppress_ours st b c m : ours c -> find_action (filters (suppress_warnings st b)) c m = if b then AIgnore else ADefault.
Proof.
  intros H. rewrite suppress_filters. cbn [find_action].
  assert (E : matches c m (mkF (if b then AIgnore else ADefault) CatStream None) = true) by (apply matches_iff; split; [exact H|now left]).
  rewrite E. reflexivity.
Qed.

Lemma filter_eqb_iff a b : filter_eqb a b = true <-> a = b.
Proof.
  destruct a as [x c o], b as [y d p]. unfold filter_eqb. cbn [f_action f_cat f_module]. rewrite !andb_true_iff, cat_eqb_iff. split.
  - intros [[E ->] F]. assert (x = y) as -> by (destruct x, y; try discriminate; reflexivity). f_equal. destruct o, p; try discriminate; try reflexivity.
    apply String.eqb_eq in F as ->. reflexivity.
  - intros E. injection E as -> -> ->. split; [split; [destruct y; reflexivity|reflexivity]|]. destruct p; [apply String.eqb_refl|reflexivity].
Qed.

Lemma remove1_find f l c m : matches c m f = false -> find_action (remove1 f l) c m = find_action l c m.
Proof.
  intros H. induction l as [|g l IH]; [reflexivity|]. cbn [remove1 find_action]. destruct (filter_eqb f g) eqn:E.
  - apply filter_eqb_iff in E as <-. rewrite H. reflexivity.
  - cbn [find_action]. rewrite IH. reflexivity.
Qed.

Lemma suppress_others st b c m : ~ ours c -> find_action (filters (suppress_warnings st b)) c m = find_action (filters st) c m.
Proof.
  intros H. rewrite suppress_filters. cbn [find_action].
  assert (E : matches c m (mkF (if b then AIgnore else ADefault) CatStream None) = false) by (apply matches_false; intros [A _]; now apply H).
  rewrite E. now apply remove1_find.
Qed.

Lemma suppress_fresh st b m : sane st -> keys_of (suppress_warnings st b) m = [].
Proof. intros H. now apply fresh. Qed.

Lemma suppress_reach st b : reach st -> reach (suppress_warnings st b).
Proof. intros H. now apply reach_filters. Qed.

(* ---------- growth of the filters ---------- *)

Lemma remove1_in f l : In f l -> length l = S (length (remove1 f l)).
Proof.
  induction l as [|g l IH]; [intros []|]. intros H. cbn [remove1]. destruct (filter_eqb f g) eqn:E; [reflexivity|]. cbn [length]. f_equal. apply IH.
  destruct H as [<-|H]; [|exact H]. assert (filter_eqb g g = true) by now apply filter_eqb_iff. congruence.
Qed.
Lemma remove1_notin f l : ~ In f l -> remove1 f l = l.
Proof.
  induction l as [|g l IH]; [reflexivity|]. intros H. cbn [remove1]. destruct (filter_eqb f g) eqn:E.
  - apply filter_eqb_iff in E as ->. exfalso. apply H. now left.
  - rewrite IH; [reflexivity|]. intros I. apply H. now right.
Qed.
Lemma remove1_other f g l : f <> g -> In g l -> In g (remove1 f l).
Proof.
  intros N. induction l as [|h l IH]; [intros []|]. intros [->|H]; cbn [remove1].
  - destruct (filter_eqb f g) eqn:E; [apply filter_eqb_iff in E; contradiction|now left].
  - destruct (filter_eqb f h); [exact H|]. right. now apply IH.
Qed.

Definition wf_dec (a b : wfilter) : {a = b} + {a <> b}.
Proof. destruct (filter_eqb a b) eqn:E; [left; now apply filter_eqb_iff|right; intros H; apply filter_eqb_iff in H; congruence]. Defined.

Definition missing (f : wfilter) (l : list wfilter) : nat := if in_dec wf_dec f l then 0 else 1.

Lemma suppress_growth bs : forall st, let f := mkF AIgnore CatStream None in let g := mkF ADefault CatStream None in
  length (filters (fold_left suppress_warnings bs st)) <= length (filters st) + missing f (filters st) + missing g (filters st).
Proof.
  induction bs as [|b bs IH]; intros st f g; [cbn [fold_left]; lia|]. cbn [fold_left].
  specialize (IH (suppress_warnings st b)). cbn zeta in IH. fold f g in IH. etransitivity; [exact IH|]. rewrite suppress_filters.
  set (l := filters st). assert (FG : f <> g) by discriminate.
  assert (G : forall x y, x <> y -> length (x :: remove1 x l) + missing x (x :: remove1 x l) + missing y (x :: remove1 x l) <= length l + missing x l + missing y l).
  { intros x y N. cbn [length]. unfold missing at 1. destruct (in_dec wf_dec x (x :: remove1 x l)) as [_|A]; [|exfalso; apply A; now left].
    assert (Y : missing y (x :: remove1 x l) <= missing y l).
    { unfold missing. destruct (in_dec wf_dec y (x :: remove1 x l)) as [_|A]; [lia|]. destruct (in_dec wf_dec y l) as [B|_]; [|lia].
      exfalso. apply A. right. now apply remove1_other. }
    destruct (in_dec wf_dec x l) as [B|B].
    - rewrite (remove1_in x l B). lia.
    - assert (X : missing x l = 1) by (unfold missing; destruct (in_dec wf_dec x l); [contradiction|reflexivity]). rewrite X, (remove1_notin x l B) in *. lia. }
  destruct b.
  - apply (G f g FG).
  - pose proof (G g f (not_eq_sym FG)). fold g. lia.
Qed.

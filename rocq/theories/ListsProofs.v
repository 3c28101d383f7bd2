(** Lemmas about Lists.v. *)

From Coq Require Import String Ascii List ZArith Bool Lia Permutation.
From Verif Require Import Py MetaProofs Dispatch Lists ListsSpec.
Import ListNotations.
Open Scope string_scope.
Open Scope list_scope.

Lemma sapp_assoc (a b c : string) : ((a ++ b) ++ c = a ++ (b ++ c))%string.
Proof. induction a as [|x a IH]; [reflexivity|]. cbn [String.append]. now rewrite IH. Qed.
Lemma sapp_nil (a : string) : (a ++ EmptyString = a)%string.
Proof. induction a as [|x a IH]; [reflexivity|]. cbn [String.append]. now rewrite IH. Qed.
Lemma sapp_inj_l (a b c : string) : (a ++ b = a ++ c)%string -> b = c.
Proof. induction a as [|x a IH]; [auto|]. cbn [String.append]. intros [= H]. auto. Qed.
Lemma sapp_length (a b : string) : String.length (a ++ b) = (String.length a + String.length b)%nat.
Proof. induction a as [|x a IH]; [reflexivity|]. cbn [String.append String.length]. now rewrite IH. Qed.
Lemma sapp_inj_r (a b c : string) : (a ++ c = b ++ c)%string -> a = b.
Proof.
  revert b. induction a as [|x a IH]; intros [|y b] H; [reflexivity| | |].
  - apply (f_equal String.length) in H. cbn [String.append String.length] in H. rewrite sapp_length in H. lia.
  - apply (f_equal String.length) in H. cbn [String.append String.length] in H. rewrite sapp_length in H. lia.
  - cbn [String.append] in H. injection H as -> H. f_equal. auto.
Qed.

Lemma prefix_iff p s : String.prefix p s = true <-> begins p s.
Proof.
  revert s. induction p as [|c p IH]; intros s; [destruct s; split; intros; [exists EmptyString| |exists (String a s)|]; reflexivity|].
  destruct s as [|d s]; cbn [String.prefix].
  - split; [discriminate|]. intros (b & H). discriminate.
  - destruct (ascii_dec c d) as [->|N].
    + rewrite IH. split; intros (b & H); exists b; [now rewrite H|]. cbn [String.append] in H. now injection H.
    + split; [discriminate|]. intros (b & H). cbn [String.append] in H. injection H as -> _. congruence.
Qed.

(* ---------- lines ---------- *)

Lemma split_one l t : one_line l -> split_lines (l ++ String NL t)%string = l :: split_lines t.
Proof.
  induction l as [|c l IH]; intros H; [reflexivity|]. cbn [String.append split_lines]. destruct (Ascii.eqb c NL) eqn:E.
  - apply Ascii.eqb_eq in E. subst c. exfalso. apply H. exists EmptyString, l. reflexivity.
  - rewrite IH; [reflexivity|]. intros (a & b & ->). apply H. exists (String c a), b. reflexivity.
Qed.

Lemma split_last l : one_line l -> split_lines l = [l].
Proof.
  induction l as [|c l IH]; intros H; [reflexivity|]. cbn [split_lines]. destruct (Ascii.eqb c NL) eqn:E.
  - apply Ascii.eqb_eq in E. subst c. exfalso. apply H. exists EmptyString, l. reflexivity.
  - rewrite IH; [reflexivity|]. intros (a & b & ->). apply H. exists (String c a), b. reflexivity.
Qed.

Lemma split_join l : l <> [] -> Forall one_line l -> split_lines (join_lines l) = l.
Proof.
  induction l as [|a [|b l] IH]; intros Hne H; [congruence| |].
  - inversion_clear H. cbn [join_lines]. now apply split_last.
  - inversion_clear H. cbn [join_lines]. rewrite split_one by assumption. f_equal. apply IH; [discriminate|assumption].
Qed.

Lemma split_app_nl s : split_lines (s ++ String NL EmptyString)%string = split_lines s ++ [EmptyString].
Proof.
  induction s as [|c s IH]; [reflexivity|]. cbn [String.append split_lines]. rewrite IH. destruct (Ascii.eqb c NL); [reflexivity|].
  destruct (split_lines s) eqn:E; [|reflexivity]. exfalso. destruct s as [|d s]; cbn [split_lines] in E; [congruence|].
  destruct (Ascii.eqb d NL); [congruence|]. destruct (split_lines s); congruence.
Qed.

(* ---------- replace ---------- *)

Lemma replace_none old new s : ~ occurs old s -> replace old new s = s.
Proof.
  unfold replace. induction s as [|c s IH]; intros H; [reflexivity|]. cbn [replace_from].
  destruct (String.prefix old (String c s)) eqn:E.
  - exfalso. apply prefix_iff in E as (b & E). apply H. exists EmptyString, b. exact E.
  - f_equal. apply IH. intros (a & b & ->). apply H. exists (String c a), b. reflexivity.
Qed.

Lemma replace_skip old new k : forall a s, String.length a = k -> replace_from k old new (a ++ s)%string = replace_from 0 old new s.
Proof.
  induction k as [|k IH]; intros [|c a] s H; try discriminate; [reflexivity|]. cbn [String.append replace_from]. apply IH. now injection H.
Qed.

Lemma replace_front old new s : old <> EmptyString -> replace old new (old ++ s)%string = (new ++ replace old new s)%string.
Proof.
  intros H. unfold replace. destruct old as [|c old]; [congruence|].
  assert (P : String.prefix (String c old) (String c old ++ s)%string = true) by (apply prefix_iff; exists s; reflexivity).
  cbn [String.append] in *. cbn [replace_from]. rewrite P. cbn [String.length Nat.pred]. now rewrite replace_skip.
Qed.

Lemma replace_end old new root : old <> EmptyString -> only_at_end old (root ++ old)%string -> replace old new (root ++ old)%string = (root ++ new)%string.
Proof.
  intros Hne [_ H]. induction root as [|c root IH].
  - cbn [String.append]. pose proof (replace_front old new EmptyString Hne) as R. rewrite sapp_nil in R. rewrite R. apply sapp_nil.
  - cbn [String.append]. unfold replace in *. cbn [replace_from].
    destruct (String.prefix old (String c (root ++ old))) eqn:E.
    + exfalso. apply prefix_iff in E as (b & E). assert (b = EmptyString) as -> by (apply (H EmptyString b E)).
      rewrite sapp_nil in E. apply (f_equal String.length) in E. cbn [String.length] in E. rewrite sapp_length in E. lia.
    + f_equal. apply IH. intros a b Eab. apply (H (String c a) b). cbn [String.append]. now rewrite Eab.
Qed.

Lemma get_tensor_attr_torch {O} (ta te : string -> option O) x : ~ begins "Tensor." x -> get_tensor_attr ta te x = getattr ta x.
Proof. intros H. unfold get_tensor_attr. destruct (String.prefix "Tensor." x) eqn:E; [|reflexivity]. apply prefix_iff in E. contradiction. Qed.

Lemma get_tensor_attr_tensor {O} (ta te : string -> option O) x : ~ occurs "Tensor." x -> get_tensor_attr ta te ("Tensor." ++ x)%string = getattr te x.
Proof.
  intros H. unfold get_tensor_attr. replace (String.prefix "Tensor." ("Tensor." ++ x)%string) with true by (symmetry; apply prefix_iff; now exists x).
  rewrite replace_front by discriminate. now rewrite replace_none.
Qed.

(* ---------- file names ---------- *)

Lemma wild_exact p s t : ~ occurs "*" p -> wild (p ++ t)%string s = true <-> exists r, s = (p ++ r)%string /\ wild t r = true.
Proof.
  revert s. induction p as [|c p IH]; intros s H.
  - cbn [String.append]. split; [eauto|]. intros (r & -> & Hr). exact Hr.
  - cbn [String.append wild]. destruct (Ascii.eqb c "*") eqn:E.
    { apply Ascii.eqb_eq in E. subst c. exfalso. apply H. exists EmptyString, p. reflexivity. }
    assert (H' : ~ occurs "*" p). { intros (a & b & ->). apply H. exists (String c a), b. reflexivity. }
    destruct s as [|d s]; [split; [discriminate|intros (r & R & _); discriminate]|]. rewrite andb_true_iff, Ascii.eqb_eq, (IH s H'). split.
    + intros (-> & r & -> & Hr). eauto.
    + intros (r & R & Hr). injection R as -> ->. eauto.
Qed.

Lemma wild_nil s : wild EmptyString s = true <-> s = EmptyString.
Proof. destruct s; cbn; split; congruence. Qed.

Lemma wild_star t s : wild (String "*" t) s = true <-> exists a r, s = (a ++ r)%string /\ wild t r = true.
Proof.
  cbn [wild]. change (Ascii.eqb "*" "*") with true. cbn match.
  set (go := fix go (s : string) : bool := wild t s || match s with EmptyString => false | String _ t0 => go t0 end).
  assert (G : forall s, go s = true <-> exists a r, s = (a ++ r)%string /\ wild t r = true); [|apply G].
  clear s. induction s as [|c s IH]; cbn [go]; rewrite orb_true_iff.
  - split; [intros [H|H]; [exists EmptyString, EmptyString; auto|discriminate]|]. intros (a & r & E & Hr). left. destruct a; [|discriminate].
    cbn [String.append] in E. now rewrite E.
  - fold go. rewrite IH. split.
    + intros [H|(a & r & -> & Hr)]; [exists EmptyString, (String c s); auto|]. exists (String c a), r. auto.
    + intros (a & r & E & Hr). destruct a as [|d a]; cbn [String.append] in E; [left; now rewrite E|]. injection E as -> ->. right. eauto.
Qed.

Lemma stem_nostar k : ~ occurs "*" (stem k).
Proof.
  assert (G : forall s, (forall a b, s <> (a ++ "*" ++ b)%string) -> ~ occurs "*" s) by (intros s H (a & b & E); exact (H a b E)).
  assert (D : forall s, contains "*" s = false -> ~ occurs "*" s).
  { induction s as [|c s IH]; intros H (a & b & E); [destruct a; discriminate|]. cbn [contains] in H. apply orb_false_iff in H as [H1 H2].
    destruct a as [|d a]; cbn [String.append] in E.
    - assert (String.prefix "*" (String c s) = true) by (apply prefix_iff; exists b; exact E). congruence.
    - injection E as -> E. apply (IH H2). now exists a, b. }
  apply D. destruct k; vm_compute; reflexivity.
Qed.

Lemma glob_kind k n : (wild (stem k ++ "*.txt")%string n && (String.prefix "." (stem k ++ "*.txt")%string || negb (String.prefix "." n))) = true <->
  exists mid, n = (stem k ++ mid ++ ".txt")%string.
Proof.
  rewrite andb_true_iff, (wild_exact (stem k) n "*.txt" (stem_nostar k)). split.
  - intros [(r & -> & H) _]. apply wild_star in H as (a & t & -> & H). change ".txt" with (".txt" ++ EmptyString)%string in H.
    apply wild_exact in H as (t' & -> & H).
    + apply wild_nil in H as ->. exists a. reflexivity.
    + intros (x & y & E). repeat (destruct x as [|? x]; [discriminate|]; cbn [String.append] in E; injection E as _ E). destruct x; discriminate.
  - intros (mid & ->). split.
    + exists (mid ++ ".txt")%string. split; [reflexivity|]. apply wild_star. exists mid, ".txt"%string. split; reflexivity.
    + destruct k; reflexivity.
Qed.

Lemma stems_apart k k' x y : k <> k' -> (stem k ++ x)%string <> (stem k' ++ y)%string.
Proof. destruct k, k'; intros N; try congruence; cbn [stem String.append]; intros E; injection E; discriminate. Qed.

Lemma filter_single {A} (f : A -> bool) l x : In x l -> f x = true -> (forall y, In y l -> f y = true -> y = x) -> exists t, filter f l = x :: t.
Proof.
  intros Hin Hx H. destruct (filter f l) as [|y t] eqn:E.
  - assert (I : In x (filter f l)) by now apply filter_In. rewrite E in I. destruct I.
  - assert (I : In y (filter f l)) by (rewrite E; now left). apply filter_In in I as [I1 I2]. rewrite (H y I1 I2). eauto.
Qed.

Section Load.
Context {O : Type} (ta te : string -> option O).

Lemma load_content d k mid content :
  In ((stem k ++ mid ++ ".txt")%string, content) d ->
  (forall n c, In (n, c) d -> begins (stem k) n -> ends ".txt" n -> n = (stem k ++ mid ++ ".txt")%string /\ c = content) ->
  load ta te d k = mapM (get_tensor_attr ta te) (split_lines content).
Proof.
  intros Hin H. unfold load, glob.
  destruct (filter_single (fun f => wild (stem k ++ "*.txt")%string (fst f) && (String.prefix "." (stem k ++ "*.txt")%string || negb (String.prefix "." (fst f)))) d
    ((stem k ++ mid ++ ".txt")%string, content) Hin) as (t & ->); [| |reflexivity].
  - cbn [fst]. apply glob_kind. eauto.
  - intros [n c] Hy Hm. cbn [fst] in Hm. apply glob_kind in Hm as (mid' & ->). destruct (H _ _ Hy) as [-> ->]; [eexists; reflexivity| |reflexivity].
    exists (stem k ++ mid')%string. now rewrite sapp_assoc.
Qed.

Lemma load_missing d k : load ta te d k = Err IndexError <->
  (forall n c, In (n, c) d -> ~ exists mid, n = (stem k ++ mid ++ ".txt")%string) \/
  (exists n c t, glob (stem k ++ "*.txt")%string d = (n, c) :: t /\ mapM (get_tensor_attr ta te) (split_lines c) = Err IndexError).
Proof.
  unfold load. destruct (glob (stem k ++ "*.txt")%string d) as [|[n c] t] eqn:E.
  - split; [|reflexivity]. intros _. left. intros n c Hin Hm. apply glob_kind in Hm.
    assert (I : In (n, c) (glob (stem k ++ "*.txt")%string d)) by (apply filter_In; split; [exact Hin|exact Hm]). rewrite E in I. destruct I.
  - split; [intros H; right; eauto 6|]. intros [H|(n' & c' & t' & H1 & H2)]; [|congruence]. exfalso.
    assert (I : In (n, c) (glob (stem k ++ "*.txt")%string d)) by (rewrite E; now left). apply filter_In in I as [I1 I2]. cbn [fst] in I2.
    apply glob_kind in I2. exact (H _ _ I1 I2).
Qed.

Lemma attr_errors x e : get_tensor_attr ta te x = Err e -> e = AttributeError.
Proof. unfold get_tensor_attr, getattr. destruct (String.prefix _ _); [destruct (te _)|destruct (ta x)]; congruence. Qed.

Lemma attrs_errors l e : mapM (get_tensor_attr ta te) l = Err e -> e = AttributeError.
Proof.
  induction l as [|a l IH]; [discriminate|]. rewrite mapM_cons. destruct (get_tensor_attr ta te a) as [o|e'] eqn:E; cbn [bind].
  - destruct (mapM _ l) as [os|e'']; cbn [bind]; [discriminate|]. intros [= <-]. now apply IH.
  - intros [= <-]. now apply attr_errors in E.
Qed.

Lemma load_missing_iff d k : load ta te d k = Err IndexError <-> forall n c, In (n, c) d -> ~ exists mid, n = (stem k ++ mid ++ ".txt")%string.
Proof.
  rewrite load_missing. split; [|auto]. intros [H|(n & c & t & _ & H)]; [exact H|]. apply attrs_errors in H. discriminate.
Qed.

Lemma load_found d k os : load ta te d k = Ok os -> exists n c mid, In (n, c) d /\ n = (stem k ++ mid ++ ".txt")%string.
Proof.
  intros H. unfold load in H. destruct (glob (stem k ++ "*.txt")%string d) as [|[n c] t] eqn:E; [discriminate|].
  assert (I : In (n, c) (glob (stem k ++ "*.txt")%string d)) by (rewrite E; now left). apply filter_In in I as [I1 I2]. cbn [fst] in I2. apply glob_kind in I2 as (mid & ->).
  now exists (stem k ++ mid ++ ".txt")%string, c, mid.
Qed.

Lemma load_blank d k mid content :
  In ((stem k ++ mid ++ ".txt")%string, content) d ->
  (forall n c, In (n, c) d -> begins (stem k) n -> ends ".txt" n -> n = (stem k ++ mid ++ ".txt")%string /\ c = content) ->
  In EmptyString (split_lines content) -> ta EmptyString = None -> load ta te d k = Err AttributeError.
Proof.
  intros Hin H Hb Ht. rewrite (load_content d k mid content Hin H). destruct (mapM _ _) as [os|e] eqn:E; [|now rewrite (attrs_errors _ _ E)].
  exfalso. clear -E Hb Ht. revert os E. induction (split_lines content) as [|a l IH]; [destruct Hb|]. intros os. rewrite mapM_cons. destruct Hb as [->|Hb].
  - assert (G : get_tensor_attr ta te EmptyString = Err AttributeError) by (unfold get_tensor_attr, getattr; cbn [String.prefix]; now rewrite Ht).
    rewrite G. discriminate.
  - destruct (get_tensor_attr ta te a); cbn [bind]; [|discriminate]. destruct (mapM _ l) as [os'|]; cbn [bind]; [|discriminate]. intros _. now apply (IH Hb os').
Qed.

Lemma files_one date cls d k : Permutation (files date cls) d ->
  In ((stem k ++ date ++ ".txt")%string, join_lines (cls k)) d /\
  forall n c, In (n, c) d -> begins (stem k) n -> ends ".txt" n -> n = (stem k ++ date ++ ".txt")%string /\ c = join_lines (cls k).
Proof.
  intros P. split.
  - apply (Permutation_in _ P). unfold files. apply in_map_iff. exists k. split; [reflexivity|]. destruct k; simpl; tauto.
  - intros n c Hin (b & Hb) _. apply (Permutation_in _ (Permutation_sym P)) in Hin. unfold files in Hin. apply in_map_iff in Hin as (k' & E & _).
    injection E as E1 E2. subst n c. assert (k' = k) as ->; [|auto].
    assert (D : k' = k \/ k' <> k) by (destruct k, k'; (left; reflexivity) || (right; discriminate)). destruct D as [D|D]; [exact D|]. exfalso. exact (stems_apart _ _ _ _ D Hb).
Qed.

Lemma scrape_never callable plainly recoupled pwo date d : exists e, scrape ta te callable plainly recoupled pwo date d d = Err e.
Proof.
  unfold scrape. destruct (import_dreamstream ta te d) as [u|e] eqn:E; cbn [bind]; [|eauto]. destruct (glob "*pointwise-ops*.txt" d) eqn:G; [|eauto]. exfalso.
  unfold import_dreamstream in E. destruct (load ta te d DefaultValid) as [os|] eqn:L; [|discriminate]. destruct (load_found _ _ _ L) as (n & c & mid & Hin & ->).
  assert (I : In ((stem DefaultValid ++ mid ++ ".txt")%string, c) (glob "*pointwise-ops*.txt" d)); [|rewrite G in I; exact I].
  apply filter_In. split; [exact Hin|]. cbn [fst]. apply andb_true_iff. split; [|reflexivity].
  apply wild_star. exists "default-valid-"%string, ("pointwise-ops-" ++ mid ++ ".txt")%string. split; [reflexivity|].
  change "pointwise-ops*.txt" with ("pointwise-ops" ++ "*.txt")%string. apply wild_exact.
  - intros (x & y & F). repeat (destruct x as [|? x]; [discriminate|]; cbn [String.append] in F; injection F as _ F). destruct x; discriminate.
  - exists ("-" ++ mid ++ ".txt")%string. split; [reflexivity|]. apply wild_star. exists ("-" ++ mid)%string, ".txt"%string. split; [now rewrite sapp_assoc|reflexivity].
Qed.
End Load.

(* ---------- the classes ---------- *)

Lemma ends_with_iff suf s : ends_with suf s = true <-> ends suf s.
Proof.
  induction s as [|c s IH]; cbn [ends_with]; rewrite orb_true_iff, String.eqb_eq.
  - split; [intros [<-|H]; [exists EmptyString; reflexivity|discriminate]|]. intros (a & E). left. destruct a; [exact E|discriminate].
  - rewrite IH. split; [intros [<-|(a & ->)]; [exists EmptyString; reflexivity|exists (String c a); reflexivity]|].
    intros (a & E). destruct a as [|d a]; [left; exact E|]. injection E as -> E. right. now exists a.
Qed.

Lemma class_spec callable plainly recoupled fs k f :
  In f (class_of callable plainly recoupled fs k) -> In f fs /\ callable f = true /\
    (ends "_" f <-> k = Valid \/ k = InplaceRecouple) /\
    (k = Valid \/ k = DefaultValid -> plainly f = true) /\ (k = Recouple \/ k = InplaceRecouple -> plainly f = false /\ recoupled f = true).
Proof.
  unfold class_of. intros H. apply filter_In in H as [H1 H2]. split; [exact H1|]. unfold classify in H2. rewrite <- ends_with_iff.
  destruct (by_hand f); [discriminate|]. destruct (callable f); [|discriminate]. split; [reflexivity|].
  destruct (plainly f); [|destruct (recoupled f); [|discriminate]]; destruct (ends_with "_" f), k; try discriminate;
    (split; [split; [intros; auto; congruence|intros [|]; congruence]|]); (split; [intros [|]; congruence|]); intros [|]; try congruence; auto.
Qed.

Lemma class_complete callable plainly recoupled fs f : In f fs -> by_hand f = false -> callable f = true -> plainly f || recoupled f = true ->
  exists k, In f (class_of callable plainly recoupled fs k).
Proof.
  intros H1 H2 H3 H4. destruct (classify callable plainly recoupled f) as [k|] eqn:E.
  - exists k. apply filter_In. rewrite E. split; [exact H1|]. destruct k; reflexivity.
  - exfalso. unfold classify in E. rewrite H2, H3 in E. destruct (plainly f); [discriminate|]. cbn [orb] in H4. rewrite H4 in E. discriminate.
Qed.

Lemma class_unique callable plainly recoupled fs k k' f :
  In f (class_of callable plainly recoupled fs k) -> In f (class_of callable plainly recoupled fs k') -> k = k'.
Proof.
  unfold class_of. rewrite !filter_In. intros [_ H] [_ H']. destruct (classify _ _ _ f) as [c|]; [|discriminate]. destruct k, k', c; try discriminate; reflexivity.
Qed.

Lemma contains_iff sub s : contains sub s = true <-> occurs sub s.
Proof.
  split.
  - induction s as [|c s IH]; cbn [contains]; intros H; apply orb_true_iff in H as [H|H].
    + apply prefix_iff in H as (b & H). exists EmptyString, b. exact H.
    + discriminate.
    + apply prefix_iff in H as (b & H). exists EmptyString, b. exact H.
    + destruct (IH H) as (a & b & ->). exists (String c a), b. reflexivity.
  - intros (a & b & ->). induction a as [|c a IH].
    + cbn [String.append]. assert (P : String.prefix sub (sub ++ b)%string = true) by (apply prefix_iff; now exists b).
      destruct (sub ++ b)%string; cbn [contains]; rewrite P; reflexivity.
    + cbn [String.append contains]. rewrite IH. apply orb_true_r.
Qed.

Lemma by_hand_iff f : by_hand f = true <-> occurs "quantize" f \/ ends "real" f \/ ends "imag" f \/ ends "frexp" f \/ ends "gradient" f.
Proof. unfold by_hand. rewrite !orb_true_iff, contains_iff, !ends_with_iff. tauto. Qed.

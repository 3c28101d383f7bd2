(** Lemmas for drop_last (C43). *)

From Coq Require Import String List ZArith Bool Lia Permutation.
From Coq Require Import ZifyBool.
From Verif Require Import Py Meta MetaSpec MetaProofs Pad Data DataSpec DataProofs.
Import ListNotations.
Open Scope nat_scope.

(* ---------- zip of lists ---------- *)

Fixpoint zcons {A} (s : list A) (r : list (list A)) : list (list A) :=
  match s, r with a :: s', b :: r' => (a :: b) :: zcons s' r' | _, _ => [] end.
Fixpoint zips {A} (ss : list (list A)) : list (list A) :=
  match ss with [] => [] | [s] => map (fun a => [a]) s | s :: t => zcons s (zips t) end.

Lemma zip2_of {A} : forall (s : list A) r, zip2 (gen_of s) (gen_of r) = gen_of (zcons s r).
Proof. induction s as [|a s IH]; intros [|b r]; simpl; auto. now rewrite IH. Qed.

Lemma zip_gens_of {A} (ss : list (list A)) : zip_gens (map gen_of ss) = gen_of (zips ss).
Proof.
  induction ss as [|s ss IH]; [reflexivity|]. destruct ss as [|t ss]; [apply gmap_of|].
  change (zip_gens (map gen_of (s :: t :: ss))) with (zip2 (gen_of s) (zip_gens (map gen_of (t :: ss)))).
  rewrite IH, zip2_of. reflexivity.
Qed.

Lemma zcons_nth {A} : forall (s : list A) r k b, nth_error (zcons s r) k = Some b ->
  exists x b', b = x :: b' /\ nth_error s k = Some x /\ nth_error r k = Some b'.
Proof. induction s as [|a s IH]; intros [|c r] [|k] b H; simpl in *; try discriminate; [inversion H; subst; eauto|eauto]. Qed.

Lemma zcons_len {A} : forall (s : list A) r, length (zcons s r) = Nat.min (length s) (length r).
Proof. induction s as [|a s IH]; intros [|c r]; simpl; auto. Qed.

Lemma zips_nth {A} : forall (ss : list (list A)) k b, nth_error (zips ss) k = Some b ->
  Forall2 (fun s x => nth_error s k = Some x) ss b.
Proof.
  induction ss as [|s ss IH]; intros k b H; [destruct k; discriminate|]. destruct ss as [|t ss].
  - cbn [zips] in H. rewrite nth_error_map in H. destruct (nth_error s k) eqn:E; inversion H; subst. constructor; auto.
  - change (zips (s :: t :: ss)) with (zcons s (zips (t :: ss))) in H. apply zcons_nth in H as (x & b' & -> & H1 & H2).
    constructor; auto.
Qed.

Lemma zips_len {A} : forall (ss : list (list A)) k, ss <> [] -> (k < length (zips ss) <-> Forall (fun s => k < length s) ss).
Proof.
  induction ss as [|s ss IH]; intros k Hne; [congruence|]. destruct ss as [|t ss].
  - cbn [zips]. rewrite map_length. split; [intros; constructor; auto|]. intros H. now inversion H.
  - change (zips (s :: t :: ss)) with (zcons s (zips (t :: ss))). rewrite zcons_len.
    specialize (IH k ltac:(discriminate)). split.
    + intros H. constructor; [lia|]. apply IH. lia.
    + intros H. inversion H as [|? ? H1 H2]; subst. apply IH in H2. lia.
Qed.

(** The shortest list is used up. *)
Lemma zips_shortest {A} (ss : list (list A)) : ss <> [] -> exists s, In s ss /\ length s = length (zips ss).
Proof.
  intros Hne. destruct (Forall_dec (fun s => length (zips ss) < length s) (fun s => lt_dec _ _) ss) as [H|H].
  - apply zips_len in H; auto. lia.
  - assert (G : exists s, In s ss /\ length s <= length (zips ss)).
    { clear Hne. revert H. generalize (zips ss). intros z H. induction ss as [|s ss IH]; [exfalso; apply H; constructor|].
      destruct (le_lt_dec (length s) (length z)); [exists s; split; [left; auto|auto]|].
      destruct IH as (t & Ht & E); [intros G; apply H; constructor; auto|]. exists t. split; [right; auto|auto]. }
    destruct G as (s & Hs & Hl). exists s. split; auto.
    destruct (length (zips ss)) as [|m] eqn:E; [lia|]. assert (G : m < length (zips ss)) by lia. apply zips_len in G; auto.
    rewrite Forall_forall in G. specialize (G s Hs). lia.
Qed.

Lemma firstn_S_nth {A} : forall k (l : list A) b, nth_error l k = Some b -> firstn (S k) l = firstn k l ++ [b].
Proof. induction k; intros [|a l] b H; simpl in *; try discriminate; [now inversion H|]. f_equal. now apply IHk. Qed.

Lemma filter_forall2 {A} (P : A -> bool) k : forall (ss : list (list A)) b j s x, Forall2 (fun s x => nth_error s k = Some x) ss b ->
  nth_error ss j = Some s -> nth_error s k = Some x -> (forall i t y, nth_error ss i = Some t -> i <> j -> In y t -> P y = false) ->
  filter P b = filter P [x].
Proof.
  intros ss b j s x H. revert j. induction H as [|t y ss b Hy Hr IH]; intros [|j] Hj Hx Ho; cbn [nth_error] in Hj; try discriminate.
  - inversion Hj; subst t. rewrite Hx in Hy. inversion Hy; subst y. cbn [filter].
    assert (E : filter P b = []).
    { apply filter_none. intros z Hz. clear IH. apply In_nth_error in Hz as (i & Hi).
      assert (G : exists t, nth_error ss i = Some t /\ nth_error t k = Some z).
      { clear - Hr Hi. revert i Hi. induction Hr; intros [|i] Hi; try discriminate; simpl in *; eauto. inversion Hi; subst; eauto. }
      destruct G as (t & Ht & Hz). apply (Ho (S i) t z); auto. eapply nth_error_In; eauto. }
    rewrite E. reflexivity.
  - cbn [filter]. rewrite (Ho 0 t y eq_refl); [|lia|eapply nth_error_In; eauto]. apply (IH j Hj Hx).
    intros i u z Hu Hi. apply (Ho (S i) u z Hu). lia.
Qed.

Lemma filter_none2 {A} (P : A -> bool) k : forall (ss : list (list A)) b, Forall2 (fun s x => nth_error s k = Some x) ss b ->
  (forall t y, In t ss -> In y t -> P y = false) -> filter P b = [].
Proof.
  intros ss b H Ho. induction H as [|t y ss b Hy Hr IH]; [reflexivity|]. cbn [filter].
  rewrite (Ho t y); [|left; auto|eapply nth_error_In; eauto]. apply IH. intros; eapply Ho; eauto. right; auto.
Qed.

Lemma zips_filter {A} (P : A -> bool) (ss : list (list A)) j s : nth_error ss j = Some s ->
  (forall i t y, nth_error ss i = Some t -> i <> j -> In y t -> P y = false) ->
  forall k, k <= length (zips ss) -> filter P (List.concat (firstn k (zips ss))) = filter P (firstn k s).
Proof.
  intros Hj Ho. induction k as [|k IH]; intros Hk; [reflexivity|].
  destruct (nth_error (zips ss) k) as [b|] eqn:Eb; [|apply nth_error_None in Eb; lia].
  pose proof (zips_nth ss k b Eb) as Hf.
  assert (Hx : exists x, nth_error s k = Some x).
  { clear - Hf Hj. revert j Hj. induction Hf; intros [|j] Hj; simpl in *; try discriminate; eauto. inversion Hj; subst; eauto. }
  destruct Hx as (x & Hx). rewrite (firstn_S_nth k (zips ss) b Eb), (firstn_S_nth k s x Hx), concat_app, !filter_app, IH by lia.
  cbn [List.concat]. rewrite app_nil_r. f_equal. eapply filter_forall2; eauto.
Qed.

Lemma firstn_In {A} (x : A) : forall k l, In x (firstn k l) -> In x l.
Proof. induction k; intros [|a l] H; simpl in *; try tauto. destruct H; auto. Qed.

(* ---------- force_is_last ---------- *)

Section Drop.
Context {V : Type}.
Implicit Types (w : world V) (d : dataset) (f : string) (S : string -> list (sample V)).

Lemma force_rest_of : forall (t : list (list (sample V))) b,
  force_rest b (gen_of t) = gen_of (removelast (b :: t) ++ [map with_eos (last (b :: t) [])]).
Proof.
  induction t as [|c t IH]; intros b; [reflexivity|]. cbn [gen_of force_rest]. rewrite IH. reflexivity.
Qed.

Lemma force_of (l : list (list (sample V))) k b : length l = Datatypes.S k -> nth_error l k = Some b ->
  force_is_last (gen_of l) = gen_of (firstn k l ++ [map with_eos b]).
Proof.
  intros Hl Hb. destruct l as [|a l]; [discriminate|]. cbn [gen_of force_is_last]. rewrite force_rest_of. f_equal.
  assert (E : a :: l = firstn k (a :: l) ++ [b]).
  { rewrite <- (firstn_S_nth k (a :: l) b Hb), firstn_all2 by lia. reflexivity. }
  rewrite E at 1 2. rewrite last_last, removelast_last. reflexivity.
Qed.

Lemma of_file_eos f (l : list (sample V)) : of_file f (map with_eos l) = map with_eos (of_file f l).
Proof. unfold of_file. induction l as [|x l IH]; [reflexivity|]. cbn [map filter]. cbn [with_eos sid].
  destruct (String.eqb (sid x) f); cbn [map]; [f_equal|]; auto. Qed.

Lemma own_tail S g fs : own_ids S (g :: fs) -> own_ids S fs.
Proof. intros Ho h s Hh. apply Ho. right; auto. Qed.

Lemma of_file_own S fs f k : own_ids S fs -> In f fs -> of_file f (firstn k (S f)) = firstn k (S f).
Proof.
  intros Ho Hf. assert (H : forall s, In s (firstn k (S f)) -> sid s = f) by (intros s Hs; eapply Ho; [exact Hf|eapply firstn_In; eauto]).
  induction (firstn k (S f)) as [|x l IH]; [reflexivity|]. unfold of_file in *. cbn [filter].
  rewrite (proj2 (String.eqb_eq (sid x) f)) by (apply H; left; auto). f_equal. apply IH. intros; apply H; right; auto.
Qed.

Lemma of_file_other_firstn S fs f g k : own_ids S fs -> In g fs -> f <> g -> of_file f (firstn k (S g)) = [].
Proof. intros Ho Hg Hne. apply filter_none. intros s Hs. apply String.eqb_neq. rewrite (Ho g s Hg); [auto|eapply firstn_In; eauto]. Qed.

Lemma prefix_cases S : forall fs k x, NoDup fs -> own_ids S fs -> nth_error (List.concat (map S fs)) k = Some x ->
  In (sid x) fs /\
  (exists n, nth_error (S (sid x)) n = Some x /\ of_file (sid x) (firstn k (List.concat (map S fs))) = firstn n (S (sid x))) /\
  (forall f, f <> sid x -> of_file f (firstn k (List.concat (map S fs))) = [] \/
                          In f fs /\ of_file f (firstn k (List.concat (map S fs))) = S f).
Proof.
  induction fs as [|g fs IH]; intros k x Hn Ho Hx; [destruct k; discriminate|].
  inversion Hn as [|? ? Hg Hn']; subst. pose proof (own_tail S g fs Ho) as Ho'. cbn [map List.concat] in *.
  destruct (lt_dec k (length (S g))) as [Hk|Hk].
  - rewrite nth_error_app1 in Hx by auto. assert (Es : sid x = g) by (apply Ho; [left; auto|eapply nth_error_In; eauto]).
    rewrite firstn_app. replace (k - length (S g)) with 0 by lia. rewrite firstn_O, app_nil_r, Es.
    split; [left; auto|]. split.
    + exists k. split; auto. apply (of_file_own S (g :: fs)); auto. left; auto.
    + intros f Hf. left. apply (of_file_other_firstn S (g :: fs)); auto. left; auto.
  - rewrite nth_error_app2 in Hx by lia. specialize (IH _ x Hn' Ho' Hx). destruct IH as (I1 & (n & I2 & I3) & I4).
    rewrite firstn_app, firstn_all2 by lia. split; [right; auto|]. split.
    + exists n. split; auto. rewrite of_file_app, I3. rewrite (own_other S (sid x) g (g :: fs)); auto; [left; auto|intros E; rewrite E in I1; auto].
    + intros f Hf. rewrite of_file_app. destruct (String.string_dec f g) as [->|Hne].
      * right. split; [left; auto|]. rewrite (own_all S g (g :: fs)) by (auto; left; auto).
        assert (E : of_file g (firstn (k - length (S g)) (List.concat (map S fs))) = []).
        { apply filter_none. intros s Hs. apply String.eqb_neq. apply firstn_In, concat_in in Hs as [Hs _]; auto. congruence. }
        rewrite E. apply app_nil_r.
      * rewrite (own_other S f g (g :: fs)) by (auto; left; auto). cbn [app]. destruct (I4 f Hf) as [E|[E1 E2]]; [left; auto|right; split; [right|]; auto].
Qed.

Lemma complete_ended (l : list (sample V)) : complete_file l -> ended_prefix l l.
Proof.
  intros [Hne H]. destruct (nth_error l (length l - 1)) as [x|] eqn:E.
  - exists (length l - 1), x. split; auto. destruct (H _ _ E) as [_ Hx]. destruct x as [dt so eo le ix nu ii]. cbn [seos ssos sdata slen sidx snum sid] in *.
    assert (Ee : eo = true) by (rewrite Hx; destruct l; [congruence|cbn [length]; lia]). rewrite Ee in *. clear Hx Ee.
    rewrite <- (firstn_S_nth _ _ _ E). rewrite firstn_all2; auto. lia.
  - apply nth_error_None in E. destruct l; [congruence|cbn [length] in E; lia].
Qed.

Lemma nth_stream S fs bs i : (0 <= i < bs)%Z ->
  nth_error (stream_lists S fs bs) (Z.to_nat i) = Some (List.concat (map S (picks fs bs i))).
Proof.
  intros Hi. unfold stream_lists, positions. rewrite map_map, nth_error_map, (nth_error_nth' _ 0) by (rewrite seq_length; lia).
  cbn [option_map]. rewrite seq_nth by lia. f_equal. cbn [Nat.add]. do 3 f_equal. lia.
Qed.

Lemma stream_lists_len S fs bs : length (stream_lists S fs bs) = Z.to_nat bs.
Proof. unfold stream_lists, positions. now rewrite !map_length, seq_length. Qed.

Lemma stream_nth_inv S fs bs j s : nth_error (stream_lists S fs bs) j = Some s ->
  (0 <= Z.of_nat j < bs)%Z /\ s = List.concat (map S (picks fs bs (Z.of_nat j))).
Proof.
  intros H. assert (Hj : j < length (stream_lists S fs bs)) by (apply nth_error_Some; congruence).
  rewrite stream_lists_len in Hj. assert (R : (0 <= Z.of_nat j < bs)%Z) by lia. split; auto.
  pose proof (nth_stream S fs bs _ R) as G. rewrite Nat2Z.id, H in G. congruence.
Qed.

(** Everything about the batches of a dataset with drop_last and enough files. *)
Theorem dataset_drop w d shuffled S bs : dbatch d = Some bs -> (0 < bs)%Z -> ddrop d = true ->
  NoDup (dfiles d) -> Permutation shuffled (dfiles d) -> (forall f, In f (dfiles d) -> yields (process_data w d f) (S f)) ->
  (forall f, In f (dfiles d) -> complete_file (S f)) -> (bs <= zlen (dfiles d))%Z ->
  exists bss, yields (get_streams w d shuffled) bss /\ bss <> [] /\
    Forall (fun b => length b = Z.to_nat bs /\ NoDup (map sid b)) bss /\
    (forall f, of_file f (List.concat bss) = [] \/
               In f (dfiles d) /\ ended_prefix (of_file f (List.concat bss)) (S f)) /\
    (exists j, (0 <= j < bs)%Z /\
       forall p f, nth_error (if dshuffle d then shuffled else dfiles d) p = Some f -> (Z.of_nat p mod bs = j)%Z ->
         of_file f (List.concat bss) = S f).
Proof.
  intros Hbs Hb Hdr Hnd Hperm HS HC Hen. set (fs := if dshuffle d then shuffled else dfiles d).
  assert (Hpf : Permutation fs (dfiles d)) by (unfold fs; destruct (dshuffle d); auto).
  assert (Hn : NoDup fs) by (eapply Permutation_NoDup; [apply Permutation_sym; exact Hpf|auto]).
  assert (Hin : forall f, In f fs -> In f (dfiles d)) by (intros f; apply Permutation_in; auto).
  assert (HS' : forall f, In f fs -> yields (process_data w d f) (S f)) by (intros f Hf; apply HS; auto).
  assert (Ho : own_ids S fs) by (intros f s Hf Hs; eapply process_ids; [apply HS'; eauto|auto]).
  assert (Hfl : length fs = length (dfiles d)) by (apply Permutation_length; auto).
  assert (Hop : forall i, (0 <= i < bs)%Z -> own_ids S (picks fs bs i)) by (intros i Hi f s Hf; apply Ho; eapply picks_incl; eauto).
  set (ss := stream_lists S fs bs). assert (Hlen : length ss = Z.to_nat bs) by apply stream_lists_len.
  assert (Hne : ss <> []) by (intros E; rewrite E in Hlen; cbn in Hlen; lia).
  assert (Hpos : 0 < length (zips ss)).
  { apply zips_len; auto. apply Forall_forall. intros s Hs. apply In_nth_error in Hs as (j & Hj).
    apply stream_nth_inv in Hj as [Hj ->]. destruct (nth_error fs j) as [f|] eqn:Ef; [|apply nth_error_None in Ef; unfold zlen in Hen; lia].
    assert (Hf : In f (picks fs bs (Z.of_nat j))) by (apply picks_In; auto; exists j; split; auto; apply Z.mod_small; auto).
    destruct (HC f (Hin f (picks_incl _ _ _ _ Hj Hf))) as [Hnil _]. destruct (S f) as [|x l] eqn:Es; [congruence|].
    assert (G : In x (List.concat (map S (picks fs bs (Z.of_nat j))))).
    { apply in_concat. exists (S f). split; [now apply in_map|]. rewrite Es. left; auto. }
    destruct (List.concat _); [destruct G|cbn [length]; lia]. }
  destruct (length (zips ss)) as [|m] eqn:Em; [lia|].
  destruct (nth_error (zips ss) m) as [b|] eqn:Eb; [|apply nth_error_None in Eb; lia].
  pose proof (zips_nth ss m b Eb) as Hfb.
  assert (Hother : forall f i j t y, nth_error ss i = Some t -> (0 <= j < bs)%Z -> In f (picks fs bs j) -> i <> Z.to_nat j -> In y t ->
                     String.eqb (sid y) f = false).
  { intros f i j t y Ht Hj Hf Hij Hy. apply stream_nth_inv in Ht as [Hi ->]. apply concat_in in Hy as [Hy _]; [|apply Hop; auto].
    apply String.eqb_neq. intros E. rewrite E in Hy. apply picks_In in Hy as (p & Hp & Ep); [|lia|lia].
    apply picks_In in Hf as (q & Hq & Eq); [|lia|lia]. assert (p = q); [|subst; lia].
    rewrite NoDup_nth_error in Hn. apply Hn; [apply nth_error_Some; congruence|congruence]. }
  exists (firstn m (zips ss) ++ [map with_eos b]).
  (* what a file in stream j gets *)
  assert (Hget : forall f j, (0 <= j < bs)%Z -> In f (picks fs bs j) -> exists x, nth_error (List.concat (map S (picks fs bs j))) m = Some x /\
            of_file f (List.concat (firstn m (zips ss) ++ [map with_eos b])) =
            of_file f (firstn m (List.concat (map S (picks fs bs j)))) ++ map with_eos (of_file f [x])).
  { intros f j Hj Hf. pose proof (nth_stream S fs bs j Hj) as Hs. fold ss in Hs.
    assert (Hx : exists x, nth_error (List.concat (map S (picks fs bs j))) m = Some x).
    { generalize dependent (List.concat (map S (picks fs bs j))). intros s Hs. clear - Hfb Hs. revert Hs. generalize (Z.to_nat j). clear j.
      induction Hfb as [|? ? ? ? Hxx ? IHf]; intros [|j] Hj; simpl in *; try discriminate; eauto. inversion Hj; subst. eauto. }
    destruct Hx as (x & Hx). exists x. split; auto.
    rewrite concat_app, of_file_app. cbn [List.concat]. rewrite app_nil_r, of_file_eos. f_equal; [|f_equal].
    - unfold of_file. apply (zips_filter _ ss (Z.to_nat j)); auto; [|lia]. intros i t y Ht Hij Hy. eapply Hother; eauto.
    - unfold of_file. apply (filter_forall2 _ m ss b (Z.to_nat j) _ x Hfb Hs Hx). intros i t y Ht Hij Hy. eapply Hother; eauto. }
  assert (Hwhere : forall p f, nth_error fs p = Some f -> (0 <= Z.of_nat p mod bs < bs)%Z /\ In f (picks fs bs (Z.of_nat p mod bs)%Z)).
  { intros p f Hp. assert (R : (0 <= Z.of_nat p mod bs < bs)%Z) by (apply Z.mod_pos_bound; auto). split; auto.
    apply picks_In; eauto. }
  split; [|split; [|split; [|split]]].
  - unfold yields, get_streams. fold fs. unfold batch_size_of. rewrite Hbs. cbn [bind]. rewrite slices_ok by auto. cbn [bind gres].
    rewrite Hdr, (streams_are w d S fs bs Hb HS'), zip_gens_of. fold ss. apply force_of; auto.
  - destruct (firstn m (zips ss)); discriminate.
  - apply Forall_forall. intros c Hc.
    assert (G : exists k c0, nth_error (zips ss) k = Some c0 /\ length c = length c0 /\ map sid c = map sid c0).
    { apply in_app_or in Hc as [Hc|[<-|[]]].
      - apply firstn_In, In_nth_error in Hc as (k & Hk). eauto.
      - exists m, b. split; auto. rewrite map_length, map_map. auto. }
    destruct G as (k & c0 & Hk & -> & ->). apply zips_nth in Hk. split.
    + rewrite <- Hlen. clear - Hk. induction Hk; simpl; auto.
    + assert (Hdis : ForallOrdPairs (fun s t : list (sample V) => forall x y, In x s -> In y t -> sid x <> sid y) ss)
        by (apply stream_lists_disjoint; auto).
      clear - Hk Hdis. induction Hk as [|s x ss c0 Hx Hk IH]; [constructor|]. inversion Hdis as [|? ? H1 H2]; subst.
      cbn [map]. constructor; [|auto]. intros Hc. apply in_map_iff in Hc as (y & Ey & Hy).
      apply In_nth_error in Hy as (i & Hi).
      assert (G : exists t, In t ss /\ In y t).
      { clear - Hk Hi. revert i Hi. induction Hk as [|? ? ? ? Hxx ? IHf]; intros [|i] Hi; simpl in *; try discriminate.
        - inversion Hi; subst. eexists. split; [left; reflexivity|]. eapply nth_error_In; eauto.
        - destruct (IHf i Hi) as (t & ? & ?). eauto. }
      destruct G as (t & Ht & Hyt). rewrite Forall_forall in H1. apply (H1 t Ht x y); auto. eapply nth_error_In; eauto.
  - intros f. destruct (in_dec String.string_dec f fs) as [Hf|Hf].
    + apply In_nth_error in Hf as (p & Hp). destruct (Hwhere p f Hp) as [Hj Hpk].
      destruct (Hget f _ Hj Hpk) as (x & Hx & ->).
      destruct (prefix_cases S _ m x (picks_NoDup _ _ _ Hn) (Hop _ Hj) Hx) as (P1 & (n & P2 & P3) & P4).
      destruct (String.string_dec f (sid x)) as [E|E].
      * right. subst f. split; [apply Hin; eapply picks_incl; eauto|]. exists n, x. split; auto. rewrite P3. f_equal.
        unfold of_file. cbn [filter]. rewrite String.eqb_refl. reflexivity.
      * assert (E2 : of_file f [x] = []) by (unfold of_file; cbn [filter]; rewrite (proj2 (String.eqb_neq (sid x) f)); auto).
        rewrite E2. cbn [map]. rewrite app_nil_r. destruct (P4 f E) as [G|[G1 G2]]; [left; auto|]. right.
        split; [apply Hin; eapply picks_incl; eauto|]. rewrite G2. apply complete_ended. apply HC, Hin. eapply picks_incl; eauto.
    + left. rewrite concat_app, of_file_app. cbn [List.concat]. rewrite app_nil_r, of_file_eos.
      assert (Hno : forall t y, In t ss -> In y t -> String.eqb (sid y) f = false).
      { intros t y Ht Hy. apply In_nth_error in Ht as (i & Hi). apply stream_nth_inv in Hi as [Hi ->].
        apply concat_in in Hy as [Hy _]; [|apply Hop; auto]. apply String.eqb_neq. intros E. rewrite E in Hy. apply Hf. eapply picks_incl; eauto. }
      assert (E1 : of_file f (List.concat (firstn m (zips ss))) = []).
      { apply filter_none. intros y Hy. apply in_concat in Hy as (c & Hc & Hy). apply firstn_In, In_nth_error in Hc as (k & Hk).
        apply zips_nth in Hk. assert (G : filter (fun s => String.eqb (sid s) f) c = []) by (eapply filter_none2; eauto).
        destruct (String.eqb (sid y) f) eqn:Ey; auto. exfalso. assert (Q : In y (filter (fun s => String.eqb (sid s) f) c)) by (apply filter_In; auto).
        rewrite G in Q. destruct Q. }
      assert (E2 : of_file f b = []) by (unfold of_file; eapply filter_none2; eauto).
      rewrite E1, E2. reflexivity.
  - destruct (zips_shortest ss Hne) as (s & Hs & Hls). apply In_nth_error in Hs as (j & Hj).
    pose proof Hj as Hj'. apply stream_nth_inv in Hj' as [Hjr Es]. exists (Z.of_nat j). split; auto.
    intros p f Hp Hpm. fold fs in Hp. destruct (Hwhere p f Hp) as [_ Hpk]. rewrite Hpm in Hpk.
    destruct (Hget f _ Hjr Hpk) as (x & Hx & ->). rewrite Em in Hls. rewrite <- Es in *.
    assert (Ex : s = firstn m s ++ [x]) by (rewrite <- (firstn_S_nth m s x Hx), firstn_all2 by lia; auto).
    destruct (stream_of_file S fs bs f (Z.of_nat j) Hb Hn Ho Hjr) as [G _]. specialize (G Hpk). rewrite <- Es in G.
    rewrite Ex, of_file_app in G. 
    assert (Hxe : map with_eos (of_file f [x]) = of_file f [x]).
    { destruct (String.eqb_spec (sid x) f) as [E|E].
      - unfold of_file in *. cbn [filter] in *. rewrite E, String.eqb_refl in *. cbn [map]. f_equal.
        destruct (HC f) as [_ Hc]; [apply Hin; eapply picks_incl; eauto|].
        assert (Hl : nth_error (S f) (length (filter (fun s0 => String.eqb (sid s0) f) (firstn m s))) = Some x)
          by (rewrite <- G, nth_error_app2, Nat.sub_diag by lia; reflexivity).
        destruct (Hc _ _ Hl) as [_ He]. rewrite <- G, app_length in He. cbn [length] in He.
        replace (Datatypes.S _ =? _) with true in He by lia. destruct x. cbn in *. subst. reflexivity.
      - unfold of_file. cbn [filter]. rewrite (proj2 (String.eqb_neq _ _) E). reflexivity. }
    rewrite Hxe. exact G.
Qed.

(** Fewer files than streams: the iteration fails. *)
Theorem dataset_drop_few w d shuffled S bs : dbatch d = Some bs -> (0 < bs)%Z -> ddrop d = true ->
  Permutation shuffled (dfiles d) -> (forall f, In f (dfiles d) -> yields (process_data w d f) (S f)) ->
  (zlen (dfiles d) < bs)%Z -> get_streams w d shuffled = GRaise RuntimeError.
Proof.
  intros Hbs Hb Hdr Hperm HS Hfew. set (fs := if dshuffle d then shuffled else dfiles d).
  assert (Hpf : Permutation fs (dfiles d)) by (unfold fs; destruct (dshuffle d); auto).
  assert (HS' : forall f, In f fs -> yields (process_data w d f) (S f)) by (intros f Hf; apply HS; eapply Permutation_in; eauto).
  unfold get_streams. fold fs. unfold batch_size_of. rewrite Hbs. cbn [bind]. rewrite slices_ok by auto. cbn [bind gres].
  rewrite Hdr, (streams_are w d S fs bs Hb HS'), zip_gens_of.
  destruct (zips (stream_lists S fs bs)) as [|b t] eqn:E; [reflexivity|]. exfalso.
  assert (Hl : length (stream_lists S fs bs) = Z.to_nat bs) by apply stream_lists_len.
  assert (G : 0 < length (zips (stream_lists S fs bs))) by (rewrite E; cbn [length]; lia).
  apply zips_len in G; [|intros Q; rewrite Q in Hl; cbn in Hl; lia].
  assert (R : (0 <= zlen fs < bs)%Z) by (unfold zlen in *; rewrite (Permutation_length Hpf); lia).
  rewrite Forall_forall in G. specialize (G _ (nth_error_In _ _ (nth_stream S fs bs (zlen fs) R))).
  destruct (picks fs bs (zlen fs)) as [|f l] eqn:Ef; [cbn in G; lia|].
  assert (Hf : In f (picks fs bs (zlen fs))) by (rewrite Ef; left; auto). apply picks_In in Hf as (p & Hp & Hm); auto.
  assert (p < length fs) by (apply nth_error_Some; congruence). unfold zlen in *. rewrite Z.mod_small in Hm by lia. lia.
Qed.

Lemma ended_started l full : complete_file full -> ended_prefix l full -> @started_ended V l.
Proof.
  intros [Hne Hc] (n & s & Hn & ->). split.
  - destruct n as [|n].
    + destruct full as [|x t]; [congruence|]. cbn in Hn. inversion Hn; subst. cbn [firstn app]. eexists. eexists. split; [reflexivity|]. cbn [ssos].
      apply (Hc 0 s eq_refl).
    + destruct full as [|x t]; [congruence|]. cbn [firstn app]. eexists. eexists. split; [reflexivity|]. apply (Hc 0 x eq_refl).
  - eexists. eexists. split; [reflexivity|]. reflexivity.
Qed.

(* ---------- the data of the samples ---------- *)

Lemma firstn_plus {A} : forall a b (l : list A), firstn (a + b) l = firstn a l ++ firstn b (skipn a l).
Proof. induction a; intros b [|x l]; cbn [Nat.add firstn skipn app]; auto; [now rewrite firstn_nil|]. now rewrite IHa. Qed.

Lemma pieces_concat {A} (l : list A) c : forall n, List.concat (map (fun k => firstn c (skipn (k * c) l)) (seq 0 n)) = firstn (n * c) l.
Proof.
  induction n as [|n IH]; [reflexivity|]. rewrite seq_S, map_app, concat_app, IH. cbn [map List.concat Nat.add]. rewrite app_nil_r.
  replace (Datatypes.S n * c) with (n * c + c) by lia. now rewrite firstn_plus.
Qed.

Theorem process_pieces w d f raw rate c : load w f = Ok (raw, rate) ->
  chunk_size (dcn d) (dcd d) rate (zlen raw) (zlen (transform w raw)) = Ok c -> (0 < c)%Z ->
  exists l, yields (process_data w d f) l /\
    Forall (fun s => sdata s = transform w raw) l /\
    List.concat (map (fun s => firstn (Z.to_nat (slen s)) (skipn (Z.to_nat (sidx s * c)) (sdata s))) l) = transform w raw.
Proof.
  intros Hl Hc Hp. set (audio := transform w raw) in *. set (n := nchunks (zlen audio) c).
  exists (map (nth_sample audio c f) (seq 0 n)). split; [exact (process_closed w d f raw rate c Hl Hc Hp)|]. split.
  - apply Forall_forall. intros s Hs. apply in_map_iff in Hs as (k & <- & _). reflexivity.
  - rewrite map_map.
    transitivity (List.concat (map (fun k => firstn (Z.to_nat c) (skipn (k * Z.to_nat c) audio)) (seq 0 n))).
    + f_equal. apply map_ext_in. intros k _. unfold nth_sample. cbn [slen sidx sdata].
      replace (Z.to_nat (Z.of_nat k * c)) with (k * Z.to_nat c) by nia.
      assert (Hlen : length (skipn (k * Z.to_nat c) audio) = length audio - k * Z.to_nat c) by apply skipn_length.
      destruct (Z.le_gt_cases c (zlen audio - Z.of_nat k * c)).
      * rewrite Z.min_l by lia. reflexivity.
      * rewrite Z.min_r by lia. rewrite !firstn_all2; auto; rewrite Hlen; unfold zlen in *; nia.
    + rewrite pieces_concat. apply firstn_all2. pose proof (zlen_nonneg audio) as Hz.
      destruct (nchunks_spec (zlen audio) c Hp Hz) as [[H _]|[H0 _]]; [fold n in H|]; unfold zlen in *; nia.
Qed.

Lemma process_rejects w d f raw rate : load w f = Ok (raw, rate) ->
  (transform w raw = [] -> process_data w d f = GRaise ZeroDivisionError) /\
  (chunk_size (dcn d) (dcd d) rate (zlen raw) (zlen (transform w raw)) = Ok 0%Z -> process_data w d f = GRaise ValueError).
Proof.
  intros Hl. unfold process_data. rewrite Hl. cbn [bind]. split.
  - intros ->. reflexivity.
  - intros ->. reflexivity.
Qed.

Lemma chunk_size_nearest cn cd rate nf L c : (0 < cd)%Z -> (0 < nf)%Z -> chunk_size cn cd rate nf L = Ok c ->
  (2 * Z.abs (c * (cd * nf) - cn * rate * L) <= cd * nf)%Z.
Proof.
  intros H1 H2. unfold chunk_size, py_round. destruct (L =? 0)%Z; [discriminate|].
  assert (Hq : (0 < cd * nf)%Z) by nia. set (q := (cd * nf)%Z) in *. set (p := (cn * rate * L)%Z).
  destruct (q =? 0)%Z eqn:E0; [lia|]. destruct (q <? 0)%Z eqn:E1; [lia|]. rewrite Z.abs_eq by lia.
  pose proof (Z.div_mod p q ltac:(lia)). pose proof (Z.mod_pos_bound p q Hq).
  destruct (2 * (p mod q) <? q)%Z eqn:E2; [|destruct (q <? 2 * (p mod q))%Z eqn:E3; [|destruct (Z.even (p / q))]]; intros [= <-]; nia.
Qed.

End Drop.

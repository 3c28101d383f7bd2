(** Proofs about datasets. *)

From Coq Require Import String List ZArith Bool Lia Permutation.
From Coq Require Import ZifyBool.
From Verif Require Import Py Meta MetaSpec MetaProofs MetaLenProofs MetaSplitProofs MetaBatchProofs Pad ConvProofs ConvMoreProofs Data DataSpec.
Import ListNotations.
Open Scope nat_scope.

(* ---------- generators ---------- *)

Lemma gapp_of {A} (l1 l2 : list A) : gapp (gen_of l1) (gen_of l2) = gen_of (l1 ++ l2).
Proof. induction l1; simpl; auto. now rewrite IHl1. Qed.
Lemma gmap_of {A B} (f : A -> B) l : gmap f (gen_of l) = gen_of (map f l).
Proof. induction l; simpl; auto. now rewrite IHl. Qed.
Lemma chain_of {A} (ls : list (list A)) : chain_gen (map gen_of ls) = gen_of (List.concat ls).
Proof. induction ls; simpl; auto. unfold chain_gen in *. rewrite IHls. apply gapp_of. Qed.
Lemma gmap_gmap {A B C} (f : A -> B) (h : B -> C) g : gmap h (gmap f g) = gmap (fun a => h (f a)) g.
Proof. induction g; simpl; auto. now rewrite IHg. Qed.
Lemma gen_of_inj {A} : forall l1 l2 : list A, gen_of l1 = gen_of l2 -> l1 = l2.
Proof. induction l1; destruct l2; simpl; intros H; try discriminate; auto. inversion H; subst. f_equal; auto. Qed.

(** Rounds of several lists of lists: the k-th items of all of them appended. *)
Fixpoint mapp {A} (s r : list (list A)) : list (list A) :=
  match s, r with
  | [], _ => r
  | a :: s', [] => a :: mapp s' []
  | a :: s', b :: r' => (a ++ b) :: mapp s' r'
  end.
Definition rounds {A} (ss : list (list (list A))) : list (list A) := fold_right mapp [] ss.

Lemma mapp_nil_r {A} : forall s : list (list A), mapp s [] = s.
Proof. induction s; simpl; auto. now rewrite IHs. Qed.

Lemma somes_none {A} n : somes (repeat (@None A) n) = [].
Proof. induction n; simpl; auto. Qed.

(** zip_longest of error-free generators of lists, flattened. *)
Lemma zip_longest_rounds {A} : forall ss : list (list (list A)),
  gmap (fun parts => List.concat (somes parts)) (zip_longest (map gen_of ss)) = gen_of (rounds ss) .
Proof.
  induction ss as [|s ss IH]; [reflexivity|].
  cbn [map zip_longest rounds fold_right]. fold (rounds ss).
  revert IH. generalize (zip_longest (map gen_of ss)) as r. generalize (length (map gen_of ss)) as n. generalize (rounds ss) as q.
  induction s as [|a s IHs]; intros q n r Hr.
  - cbn [gen_of zip_longest2 mapp]. rewrite gmap_gmap. exact Hr.
  - cbn [gen_of zip_longest2]. destruct r as [|e|x r], q as [|b q]; simpl in Hr; try discriminate.
    + cbn [gmap mapp gen_of somes List.concat]. rewrite somes_none. cbn [List.concat]. rewrite app_nil_r. f_equal. apply IHs. reflexivity.
    + injection Hr as E1 E2. cbn [gmap mapp gen_of somes List.concat]. rewrite E1. f_equal. now apply IHs.
Qed.

(** The same for generators of single items. *)
Lemma gmap_ext {A B} (f h : A -> B) g : (forall a, f a = h a) -> gmap f g = gmap h g.
Proof. intros E. induction g; simpl; auto. now rewrite E, IHg. Qed.

Lemma zip_longest_map {A B} (f : A -> B) : forall gs : list (gen A),
  zip_longest (map (gmap f) gs) = gmap (map (option_map f)) (zip_longest gs).
Proof.
  induction gs as [|g gs IH]; [reflexivity|]. cbn [map zip_longest]. rewrite IH, map_length.
  generalize (zip_longest gs) as r. generalize (length gs) as n. induction g as [|e|a g IHg]; intros n r; cbn [gmap zip_longest2].
  - rewrite !gmap_gmap. apply gmap_ext. reflexivity.
  - reflexivity.
  - destruct r; cbn [gmap]; auto.
    + cbn [map option_map]. rewrite <- (IHg n GStop). cbn [gmap]. f_equal. f_equal. induction n; simpl; auto. now rewrite <- IHn.
    + cbn [map option_map]. now rewrite <- IHg.
Qed.

Lemma somes_map {A} (l : list (option A)) : List.concat (somes (map (option_map (fun a => [a])) l)) = somes l.
Proof. induction l as [|[a|] l IH]; simpl; auto. now rewrite IH. Qed.

Lemma zip_longest_singles {A} (ss : list (list A)) :
  gmap somes (zip_longest (map gen_of ss)) = gen_of (rounds (map (map (fun a => [a])) ss)).
Proof.
  rewrite <- zip_longest_rounds.
  replace (map gen_of (map (map (fun a : A => [a])) ss)) with (map (gmap (fun a => [a])) (map gen_of ss)).
  - rewrite zip_longest_map, gmap_gmap. apply gmap_ext. intros l. symmetry. apply somes_map.
  - rewrite !map_map. apply map_ext. intros s. apply gmap_of.
Qed.

(** What rounds keep. *)
Lemma mapp_filter {A} (P : A -> bool) : forall s r : list (list A),
  filter P (List.concat s) = [] \/ filter P (List.concat r) = [] ->
  filter P (List.concat (mapp s r)) = filter P (List.concat s) ++ filter P (List.concat r).
Proof.
  induction s as [|a s IH]; intros r H; [reflexivity|]. destruct r as [|b r].
  - rewrite mapp_nil_r. cbn [List.concat filter]. now rewrite app_nil_r.
  - cbn [mapp List.concat] in *. rewrite !filter_app in *. rewrite IH.
    + destruct H as [H|H]; apply app_eq_nil in H as [E1 E2]; rewrite E1, E2; simpl; rewrite ?app_nil_r; auto.
    + destruct H as [H|H]; apply app_eq_nil in H as [E1 E2]; auto.
Qed.

Lemma mapp_Forall2 {A} (P Q R : list A -> Prop) : (forall a, P a -> R a) -> (forall b, Q b -> R b) -> (forall a b, P a -> Q b -> R (a ++ b)) ->
  forall s r, Forall P s -> Forall Q r -> Forall R (mapp s r).
Proof.
  intros H1 H2 H3. induction s as [|a s IH]; intros r Hs Hr; cbn [mapp].
  - eapply Forall_impl; eauto.
  - inversion Hs; subst. destruct r as [|b r]; [constructor; auto|]. inversion Hr; subst. constructor; auto.
Qed.

Lemma mapp_in {A} (x : A) : forall s r, In x (List.concat (mapp s r)) <-> In x (List.concat s) \/ In x (List.concat r).
Proof.
  induction s as [|a s IH]; intros r; [simpl; tauto|]. destruct r as [|b r].
  - rewrite mapp_nil_r. simpl. tauto.
  - cbn [mapp List.concat]. rewrite !in_app_iff, IH. tauto.
Qed.

Lemma rounds_in {A} (x : A) : forall ss, In x (List.concat (rounds ss)) <-> exists s, In s ss /\ In x (List.concat s).
Proof.
  induction ss as [|s ss IH]; cbn [rounds fold_right].
  - simpl. split; [tauto|]. intros (s & [] & _).
  - fold (rounds ss). rewrite mapp_in, IH. split.
    + intros [H|(t & H1 & H2)]; [exists s|exists t]; simpl; auto.
    + intros (t & [->|H1] & H2); eauto.
Qed.

Lemma filter_none {A} (P : A -> bool) l : (forall x, In x l -> P x = false) -> filter P l = [].
Proof. induction l; intros H; auto. simpl. rewrite (H a) by (simpl; auto). apply IHl. intros x Hx. apply H. simpl; auto. Qed.

Section Rounds.
Context {V : Type}.
Implicit Types (ss : list (list (list (sample V)))).

(** Streams of different files: pairwise no common id. *)
Definition disjoint_ids ss : Prop :=
  ForallOrdPairs (fun s t => forall x y, In x (List.concat s) -> In y (List.concat t) -> sid x <> sid y) ss.

Lemma rounds_of_file f : forall ss, disjoint_ids ss ->
  (forall s, In s ss -> of_file f (List.concat (rounds ss)) = of_file f (List.concat s) \/ of_file f (List.concat s) = []) /\
  ((forall s, In s ss -> of_file f (List.concat s) = []) -> of_file f (List.concat (rounds ss)) = []).
Proof.
  induction ss as [|s ss IH]; intros H.
  - split; [intros s []|reflexivity].
  - inversion H as [|? ? Hs Hss]; subst. destruct (IH Hss) as [IH1 IH2]. cbn [rounds fold_right]. fold (rounds ss).
    assert (E : of_file f (List.concat s) = [] \/ of_file f (List.concat (rounds ss)) = []).
    { destruct (of_file f (List.concat s)) as [|x l] eqn:Ex; auto. right. apply filter_none. intros y Hy.
      apply rounds_in in Hy as (t & Ht & Hy). rewrite Forall_forall in Hs.
      assert (Hx : In x (of_file f (List.concat s))) by (rewrite Ex; left; auto). unfold of_file in Hx. apply filter_In in Hx as [Hx Ef].
      apply String.eqb_eq in Ef. destruct (String.eqb_spec (sid y) f); auto. exfalso. apply (Hs t Ht x y Hx Hy). congruence. }
    assert (Em : of_file f (List.concat (mapp s (rounds ss))) = of_file f (List.concat s) ++ of_file f (List.concat (rounds ss))).
    { apply mapp_filter. exact E. }
    rewrite Em. split.
    + intros t [<-|Ht].
      * destruct E as [E|E]; [auto|]. left. rewrite E. apply app_nil_r.
      * destruct (IH1 t Ht) as [E1|E1]; auto. destruct E as [E|E]; [left; rewrite E; exact E1|].
        right. rewrite <- E1. exact E.
    + intros Hall. rewrite (Hall s) by (left; auto). apply IH2. intros t Ht. apply Hall. right; auto.
Qed.

Lemma NoDup_app_disj {A} (l1 l2 : list A) : NoDup l1 -> NoDup l2 -> (forall x, In x l1 -> In x l2 -> False) -> NoDup (l1 ++ l2).
Proof.
  induction l1 as [|a l1 IH]; intros H1 H2 H; auto. inversion H1; subst. cbn [app]. constructor.
  - rewrite in_app_iff. intros [HX|HX]; auto. apply (H a); simpl; auto.
  - apply IH; auto. intros x Hx. apply H. simpl; auto.
Qed.

Lemma rounds_batches : forall ns ss, disjoint_ids ss ->
  Forall2 (fun n s => Forall (fun b => 1 <= length b <= n /\ NoDup (map sid b)) s) ns ss ->
  Forall (fun b => 1 <= length b <= list_sum ns /\ NoDup (map sid b)) (rounds ss).
Proof.
  intros ns ss Hd H. induction H as [|n s ns ss Hs Hss IH]; [constructor|].
  inversion Hd as [|? ? Hds Hdss]; subst. specialize (IH Hdss).
  cbn [rounds fold_right]. fold (rounds ss).
  assert (E1 : Forall (fun b => 1 <= length b <= n /\ NoDup (map sid b) /\ forall x, In x b -> In x (List.concat s)) s).
  { rewrite Forall_forall in *. intros b Hb. destruct (Hs b Hb). split; auto. split; auto. intros x Hx. apply in_concat; eauto. }
  assert (E2 : Forall (fun b => 1 <= length b <= list_sum ns /\ NoDup (map sid b) /\ forall x, In x b -> In x (List.concat (rounds ss))) (rounds ss)).
  { rewrite Forall_forall in *. intros b Hb. destruct (IH b Hb). split; auto. split; auto. intros x Hx. apply in_concat; eauto. }
  change (list_sum (n :: ns)) with (n + list_sum ns).
  eapply mapp_Forall2; [| | |exact E1|exact E2]; cbn beta.
  - intros a (A & B & C). split; auto. lia.
  - intros a (A & B & C). split; auto. lia.
  - intros a b (A & B & C) (A' & B' & C'). split; [rewrite app_length; lia|]. rewrite map_app. apply NoDup_app_disj; auto.
    intros x Hx Hy. apply in_map_iff in Hx as (p & <- & Hp). apply in_map_iff in Hy as (q & E & Hq).
    apply C in Hp. apply C' in Hq. apply rounds_in in Hq as (t & Ht & Hq). rewrite Forall_forall in Hds.
    apply (Hds t Ht p q Hp Hq). auto.
Qed.

Lemma rounds_head ss : hd [] (rounds ss) = List.concat (map (hd []) ss).
Proof.
  induction ss as [|s ss IH]; [reflexivity|]. cbn [rounds fold_right map List.concat]. fold (rounds ss). rewrite <- IH.
  destruct s as [|a s], (rounds ss); cbn [mapp hd]; rewrite ?app_nil_r; reflexivity.
Qed.

End Rounds.

(* ---------- one file ---------- *)

Section File.
Context {V : Type}.
Implicit Types (w : world V) (d : dataset) (f : string).

Definition nchunks (L c : Z) : nat := Z.to_nat ((L + c - 1) / c).
Definition nth_sample (audio : list V) (c : Z) f (k : nat) : sample V :=
  mkSample audio (k =? 0) (S k =? nchunks (zlen audio) c) (Z.min c (zlen audio - Z.of_nat k * c)) (Z.of_nat k)
           (Z.of_nat (nchunks (zlen audio) c)) f.

Lemma zip_seq_map {A B} (g : nat -> A) (h : nat -> B) n : zip (map g (seq 0 n)) (map h (seq 0 n)) = map (fun k => (g k, h k)) (seq 0 n).
Proof. apply zip_map. Qed.

Lemma process_closed w d f raw rate c : load w f = Ok (raw, rate) ->
  chunk_size (dcn d) (dcd d) rate (zlen raw) (zlen (transform w raw)) = Ok c -> (0 < c)%Z ->
  process_data w d f = gen_of (map (nth_sample (transform w raw) c f) (seq 0 (nchunks (zlen (transform w raw)) c))).
Proof.
  intros Hl Hc Hp. unfold process_data. rewrite Hl. cbn [bind]. rewrite Hc. cbn [bind].
  replace (c =? 0)%Z with false by lia. cbn [gres]. f_equal.
  set (audio := transform w raw). unfold py_range. rewrite range_len_pos by lia.
  replace (zlen audio - 0 + c - 1)%Z with (zlen audio + c - 1)%Z by lia. fold (nchunks (zlen audio) c).
  set (n := nchunks (zlen audio) c). rewrite map_map, map_length, seq_length, zip_seq_map, map_map.
  apply map_ext_in. intros k Hk. apply in_seq in Hk. cbn [fst snd]. unfold nth_sample. fold n.
  assert (Hn : Z.of_nat n = ((zlen audio + c - 1) / c)%Z).
  { unfold n, nchunks. apply Z2Nat.id. apply Z.div_pos; [|lia]. unfold zlen; lia. }
  assert (Hkc : (Z.of_nat k * c < zlen audio)%Z).
  { pose proof (Z.mul_div_le (zlen audio + c - 1) c Hp). nia. }
  f_equal.
  - lia.
  - unfold zlen at 1. rewrite map_length, seq_length. lia.
  - unfold zlen. rewrite firstn_length, skipn_length. unfold zlen in Hkc. lia.
  - unfold zlen at 1. now rewrite map_length, seq_length.
Qed.

Lemma sum_pieces (L c : Z) : (0 < c)%Z -> forall n, ((Z.of_nat n - 1) * c < L)%Z -> (0 <= L)%Z ->
  zsum (map (fun k => Z.min c (L - Z.of_nat k * c)) (seq 0 n)) = Z.min (Z.of_nat n * c) L.
Proof.
  intros Hc. induction n; intros H HL.
  - simpl. lia.
  - rewrite seq_S, map_app. cbn [map]. unfold zsum. rewrite fold_right_app. cbn [fold_right].
    assert (E : forall l x, fold_right Z.add x l = (fold_right Z.add 0 l + x)%Z) by (induction l; intros; cbn [fold_right]; [lia|rewrite IHl; lia]).
    rewrite E. unfold zsum in IHn. rewrite IHn by nia. cbn [plus]. nia.
Qed.

Lemma nchunks_spec L c : (0 < c)%Z -> (0 <= L)%Z ->
  (Z.of_nat (nchunks L c) * c >= L)%Z /\ ((Z.of_nat (nchunks L c) - 1) * c < L)%Z \/ L = 0%Z /\ nchunks L c = 0.
Proof.
  intros Hc HL. unfold nchunks. assert (0 <= (L + c - 1) / c)%Z by (apply Z.div_pos; lia).
  rewrite Z2Nat.id by auto. destruct (Z.eq_dec L 0) as [->|Hne].
  - right. split; auto. rewrite Z.div_small by lia. reflexivity.
  - left. pose proof (Z.mul_div_le (L + c - 1) c Hc). pose proof (Z.mul_succ_div_gt (L + c - 1) c Hc). nia.
Qed.

Theorem process_spec w d f raw rate c : load w f = Ok (raw, rate) ->
  chunk_size (dcn d) (dcd d) rate (zlen raw) (zlen (transform w raw)) = Ok c -> (0 < c)%Z ->
  exists l, yields (process_data w d f) l /\ complete_file l /\
    (c * (Z.of_nat (length l) - 1) < zlen (transform w raw) <= c * Z.of_nat (length l))%Z /\
    zsum (map slen l) = zlen (transform w raw) /\
    forall k s, nth_error l k = Some s -> sid s = f /\ sidx s = Z.of_nat k /\ snum s = Z.of_nat (length l) /\
      (0 < slen s <= c)%Z /\ (S k < length l -> slen s = c).
Proof.
  intros Hl Hc Hp. exists (map (nth_sample (transform w raw) c f) (seq 0 (nchunks (zlen (transform w raw)) c))).
  assert (HL : (zlen (transform w raw) > 0)%Z).
  { unfold chunk_size in Hc. destruct (zlen (transform w raw) =? 0)%Z eqn:E; [discriminate|]. pose proof (zlen_nonneg (transform w raw)). lia. }
  set (audio := transform w raw) in *. set (n := nchunks (zlen audio) c).
  assert (Hn : (Z.of_nat n * c >= zlen audio)%Z /\ ((Z.of_nat n - 1) * c < zlen audio)%Z).
  { destruct (nchunks_spec (zlen audio) c Hp) as [H|[H _]]; auto; lia. }
  assert (Hk : forall k s, nth_error (map (nth_sample audio c f) (seq 0 n)) k = Some s -> k < n /\ s = nth_sample audio c f k).
  { intros k s H. apply nth_error_map' in H as (j & Hj & ->). assert (k < n).
    { rewrite <- (seq_length n 0). apply nth_error_Some. congruence. }
    rewrite nth_error_nth' with (d := 0) in Hj by (rewrite seq_length; auto). rewrite seq_nth in Hj by auto. inversion Hj; subst j. auto. }
  rewrite !map_length, seq_length. split; [|split; [|split; [|split]]].
  - unfold yields. exact (process_closed w d f raw rate c Hl Hc Hp).
  - split.
    + assert (0 < n) by nia. destruct n; [lia|]. discriminate.
    + intros k s H. apply Hk in H as [H ->]. rewrite map_length, seq_length. split; auto.
  - lia.
  - rewrite map_map. cbn [nth_sample slen]. rewrite sum_pieces by lia. lia.
  - intros k s H. apply Hk in H as [H ->]. unfold nth_sample. cbn [sid sidx snum slen]. fold n. repeat split; try nia.
Qed.

Lemma process_ids w d f l s : process_data w d f = gen_of l -> In s l -> sid s = f.
Proof.
  unfold process_data. destruct (load w f) as [[raw rate]|e]; cbn [bind gres]; [|destruct l; discriminate].
  destruct (chunk_size _ _ _ _ _) as [c|e]; cbn [bind gres]; [|destruct l; discriminate].
  destruct (c =? 0)%Z; cbn [gres]; [destruct l; discriminate|]. intros H Hs. apply gen_of_inj in H. subst l.
  apply in_map_iff in Hs as (p & <- & _). reflexivity.
Qed.

End File.

(* ---------- file_list[i::batch_size] ---------- *)

Lemma at_positions_In {A} (l : list A) ps x : In x (at_positions l ps) <-> exists p, In p ps /\ nth_error l (Z.to_nat p) = Some x.
Proof.
  unfold at_positions. rewrite in_flat_map. split.
  - intros (p & Hp & H). exists p. split; auto. destruct (nth_error l (Z.to_nat p)); [|destruct H]. destruct H as [->|[]]. auto.
  - intros (p & Hp & H). exists p. split; auto. rewrite H. left; auto.
Qed.

Lemma at_positions_NoDup {A} (l : list A) : NoDup l -> forall ps, NoDup ps -> Forall (fun p => 0 <= p)%Z ps -> NoDup (at_positions l ps).
Proof.
  intros Hl. induction ps as [|p ps IH]; intros Hn Hp; [constructor|]. inversion Hn; subst. inversion Hp as [|? ? Hp0 Hp1]; subst.
  change (at_positions l (p :: ps)) with (match nth_error l (Z.to_nat p) with Some a => [a] | None => [] end ++ at_positions l ps).
  apply NoDup_app_disj; auto.
  - destruct (nth_error l (Z.to_nat p)); repeat constructor; auto.
  - intros x Hx Hy. destruct (nth_error l (Z.to_nat p)) as [a|] eqn:E; [|destruct Hx]. destruct Hx as [->|[]].
    apply at_positions_In in Hy as (q & Hq & Eq). apply H1. replace p with q; auto.
    rewrite Forall_forall in Hp1. specialize (Hp1 q Hq). apply Z2Nat.inj; auto.
    rewrite NoDup_nth_error in Hl. apply Hl; [|congruence]. apply nth_error_Some. congruence.
Qed.

Definition picks {A} (l : list A) (bs : Z) (i : Z) : list A := at_positions l (slice_positions (zlen l) (Some i) None bs).

Lemma positions_NoDup n : NoDup (positions n).
Proof. unfold positions. apply FinFun.Injective_map_NoDup; [|apply seq_NoDup]. intros a b. lia. Qed.

Lemma picks_NoDup {A} (l : list A) bs i : NoDup l -> NoDup (picks l bs i).
Proof.
  intros H. apply at_positions_NoDup; auto.
  - apply NoDup_filter, positions_NoDup.
  - apply Forall_forall. intros p Hp. apply slice_positions_bounds in Hp; [lia|apply zlen_nonneg].
Qed.

Lemma picks_In {A} (l : list A) bs i f : (0 < bs)%Z -> (0 <= i < bs)%Z ->
  (In f (picks l bs i) <-> exists p, nth_error l p = Some f /\ (Z.of_nat p mod bs = i)%Z).
Proof.
  intros Hb Hi. unfold picks. rewrite at_positions_In. unfold slice_positions. split.
  - intros (p & Hp & H). exists (Z.to_nat p). split; auto. pose proof Hp as Hp0. apply slice_positions_bounds in Hp0; [|apply zlen_nonneg].
    apply filter_In in Hp as [_ Hp]. unfold in_slice, slice_lo, slice_end in Hp. rewrite Z2Nat.id by lia.
    replace (i <? 0)%Z with false in Hp by lia.
    replace (Z.min i (zlen l)) with i in Hp by lia.
    assert (E : ((p - i) mod bs = 0)%Z /\ (i <= p)%Z) by lia. destruct E as [E1 E2].
    apply Z.mod_divide in E1; [|lia]. destruct E1 as (q & E1). replace p with (i + q * bs)%Z by lia. rewrite Z.mod_add by lia. now apply Z.mod_small.
  - intros (p & Hp & H). exists (Z.of_nat p). rewrite Nat2Z.id. split; auto.
    assert (Hlt : p < length l) by (apply nth_error_Some; congruence).
    apply filter_In. split.
    + unfold positions. apply in_map, in_seq. unfold zlen. lia.
    + unfold in_slice, slice_lo, slice_hi, slice_end. replace (i <? 0)%Z with false by lia.
      assert (Hle : (i <= Z.of_nat p)%Z) by (rewrite <- H; apply Z.mod_le; lia).
      unfold zlen. replace (Z.min i (Z.of_nat (length l))) with i by lia. 
      assert (E : ((Z.of_nat p - i) mod bs = 0)%Z) by (rewrite Zminus_mod, H, (Z.mod_small i bs) by lia; rewrite Z.sub_diag; apply Z.mod_0_l; lia).
      rewrite E. lia.
Qed.

Lemma slices_ok {A} (l : list A) bs : (0 < bs)%Z ->
  mapM (fun i => list_slice l (mkSlice (Some i) None (Some bs))) (py_range 0 bs 1) = Ok (map (picks l bs) (positions bs)).
Proof.
  intros Hb. replace (py_range 0 bs 1) with (positions bs).
  - apply mapM_ok. intros i Hi. now apply list_slice_pos.
  - unfold py_range, positions. rewrite range_len_pos by lia. rewrite Z.div_1_r. replace (bs - 0 + 1 - 1)%Z with bs by lia.
    apply map_ext. intros; lia.
Qed.

Lemma pairs_map {A B} (R : B -> B -> Prop) (g : A -> B) l : NoDup l -> (forall i j, In i l -> In j l -> i <> j -> R (g i) (g j)) ->
  ForallOrdPairs R (map g l).
Proof.
  induction l as [|a l IH]; intros Hn H; cbn [map]; constructor; inversion Hn; subst.
  - apply Forall_forall. intros b Hb. apply in_map_iff in Hb as (j & <- & Hj). apply H; simpl; auto. intros ->. auto.
  - apply IH; auto. intros; apply H; simpl; auto.
Qed.

(* ---------- one dataset ---------- *)

Section Dataset.
Context {V : Type}.
Implicit Types (w : world V) (d : dataset) (f : string) (S : string -> list (sample V)).

Definition own_ids S (fs : list string) : Prop := forall f s, In f fs -> In s (S f) -> sid s = f.

Lemma concat_in S fs x : own_ids S fs -> In x (List.concat (map S fs)) -> In (sid x) fs /\ In x (S (sid x)).
Proof.
  intros Ho H. apply in_concat in H as (l & Hl & Hx). apply in_map_iff in Hl as (f & <- & Hf).
  pose proof (Ho f x Hf Hx) as E. rewrite E. auto.
Qed.

Lemma own_all S f fs : own_ids S fs -> In f fs -> of_file f (S f) = S f.
Proof.
  intros Ho Hf. unfold of_file. assert (H : forall s, In s (S f) -> String.eqb (sid s) f = true).
  { intros s Hs. apply String.eqb_eq. eauto. }
  induction (S f) as [|s l IH]; auto. simpl. rewrite H by (left; auto). f_equal. apply IH. intros; apply H; right; auto.
Qed.

Lemma own_other S f g fs : own_ids S fs -> In g fs -> f <> g -> of_file f (S g) = [].
Proof.
  intros Ho Hg Hne. apply filter_none. intros s Hs. apply String.eqb_neq. rewrite (Ho g s Hg Hs). auto.
Qed.

Lemma of_file_app f (l1 l2 : list (sample V)) : of_file f (l1 ++ l2) = of_file f l1 ++ of_file f l2.
Proof. apply filter_app. Qed.

Lemma concat_of_file S f : forall fs, NoDup fs -> own_ids S fs ->
  (In f fs -> of_file f (List.concat (map S fs)) = S f) /\ (~ In f fs -> of_file f (List.concat (map S fs)) = []).
Proof.
  induction fs as [|g fs IH]; intros Hn Ho; [split; [intros []|reflexivity]|].
  inversion Hn as [|? ? Hg Hn']; subst. assert (Ho' : own_ids S fs) by (intros h s Hh; apply Ho; right; auto).
  destruct (IH Hn' Ho') as [IH1 IH2]. cbn [map List.concat]. rewrite of_file_app. split.
  - intros [->|Hf].
    + rewrite (own_all S f (f :: fs)), IH2 by (auto; left; auto). apply app_nil_r.
    + rewrite (own_other S f g (g :: fs)); [now apply IH1|auto|left; auto|intros ->; auto].
  - intros Hf. rewrite (own_other S f g (g :: fs)); [|auto|left; auto|intros ->; apply Hf; left; auto]. apply IH2. intros H; apply Hf; right; auto.
Qed.

(** The lists of samples of the streams. *)
Definition stream_lists S (fs : list string) (bs : Z) : list (list (sample V)) :=
  map (fun i => List.concat (map S (picks fs bs i))) (positions bs).

Lemma streams_are w d S fs bs : (0 < bs)%Z -> (forall f, In f fs -> yields (process_data w d f) (S f)) ->
  map (get_stream w d) (map (picks fs bs) (positions bs)) = map gen_of (stream_lists S fs bs).
Proof.
  intros Hb H. unfold stream_lists. rewrite !map_map. apply map_ext_in. intros i Hi. unfold get_stream.
  rewrite <- chain_of. f_equal. rewrite map_map. apply map_ext_in. intros f Hf. apply H.
  unfold positions in Hi. apply in_map_iff in Hi as (k & <- & Hk). apply in_seq in Hk.
  apply picks_In in Hf as (p & Hp & _); [eapply nth_error_In; eauto|lia|lia].
Qed.

Lemma length_concat_sum {A} (l : list (list A)) : length (List.concat l) = list_sum (map (@length A) l).
Proof. induction l as [|a l IH]; [reflexivity|]. cbn [List.concat map]. rewrite app_length, IH. reflexivity. Qed.

Lemma min_count n : forall m, list_sum (map (fun k => if k <? n then 1 else 0) (seq 0 m)) = Nat.min m n.
Proof.
  induction m as [|m IH]; [reflexivity|]. rewrite seq_S, map_app, list_sum_app, IH. cbn [map]. change (0 + m) with m.
  destruct (Nat.ltb_spec m n); change (list_sum [1]) with 1; change (list_sum [0]) with 0; lia.
Qed.

Lemma pos_range i bs : In i (positions bs) -> (0 <= i < bs)%Z.
Proof. unfold positions. intros H. apply in_map_iff in H as (k & <- & Hk). apply in_seq in Hk. lia. Qed.

Lemma picks_incl {A} (fs : list A) bs i (f : A) : (0 <= i < bs)%Z -> In f (picks fs bs i) -> In f fs.
Proof. intros Hi H. apply picks_In in H as (p & Hp & _); [eapply nth_error_In; eauto|lia|lia]. Qed.

Lemma stream_lists_disjoint S fs bs : NoDup fs -> own_ids S fs ->
  ForallOrdPairs (fun s t : list (sample V) => forall x y, In x s -> In y t -> sid x <> sid y) (stream_lists S fs bs).
Proof.
  intros Hn Ho. apply pairs_map; [apply positions_NoDup|]. intros i j Hi Hj Hij x y Hx Hy E.
  apply pos_range in Hi, Hj.
  apply concat_in in Hx as [Hx _]; [|intros f s Hf; apply Ho; exact (picks_incl fs bs i f Hi Hf)].
  apply concat_in in Hy as [Hy _]; [|intros f s Hf; apply Ho; exact (picks_incl fs bs j f Hj Hf)].
  apply picks_In in Hx as (p & Hp & Ep); [|lia|lia]. apply picks_In in Hy as (q & Hq & Eq); [|lia|lia].
  assert (p = q); [|subst; lia]. rewrite NoDup_nth_error in Hn. apply Hn; [apply nth_error_Some; congruence|congruence].
Qed.

Lemma concat_singletons {A} (l : list A) : List.concat (map (fun a => [a]) l) = l.
Proof. induction l; simpl; auto. now rewrite IHl. Qed.

Lemma FOP_map {A B} (R : B -> B -> Prop) (g : A -> B) l : ForallOrdPairs (fun a b => R (g a) (g b)) l -> ForallOrdPairs R (map g l).
Proof. induction 1; cbn [map]; constructor; auto. apply Forall_forall. intros b Hb. apply in_map_iff in Hb as (a' & <- & Ha). rewrite Forall_forall in H. auto. Qed.

Lemma FOP_impl {A} (R Q : A -> A -> Prop) l : (forall a b, R a b -> Q a b) -> ForallOrdPairs R l -> ForallOrdPairs Q l.
Proof. intros E. induction 1 as [|a l Ha Hl IH]; constructor; auto. eapply Forall_impl; [|exact Ha]. auto. Qed.

Lemma stream_of_file S fs bs f i : (0 < bs)%Z -> NoDup fs -> own_ids S fs -> (0 <= i < bs)%Z ->
  (In f (picks fs bs i) -> of_file f (List.concat (map S (picks fs bs i))) = S f) /\
  (~ In f (picks fs bs i) -> of_file f (List.concat (map S (picks fs bs i))) = []).
Proof.
  intros Hb Hn Ho Hi. apply concat_of_file; [now apply picks_NoDup|]. intros g s Hg. apply Ho. eapply picks_incl; eauto.
Qed.

Theorem dataset_iter w d shuffled S bs : dbatch d = Some bs -> (0 < bs)%Z -> ddrop d = false ->
  NoDup (dfiles d) -> Permutation shuffled (dfiles d) -> (forall f, In f (dfiles d) -> yields (process_data w d f) (S f)) ->
  exists bss, yields (get_streams w d shuffled) bss /\
    Forall (fun b => 1 <= length b <= Z.to_nat bs /\ NoDup (map sid b)) bss /\
    (forall f, In f (dfiles d) -> of_file f (List.concat bss) = S f) /\
    (forall s, In s (List.concat bss) -> In (sid s) (dfiles d)) /\
    ((forall f, In f (dfiles d) -> complete_file (S f)) ->
     Forall (fun s => ssos s = true) (hd [] bss) /\ length (hd [] bss) = Nat.min (Z.to_nat bs) (length (dfiles d))).
Proof.
  intros Hbs Hb Hdr Hnd Hperm HS. set (fs := if dshuffle d then shuffled else dfiles d).
  assert (Hpf : Permutation fs (dfiles d)) by (unfold fs; destruct (dshuffle d); auto).
  assert (Hn : NoDup fs) by (eapply Permutation_NoDup; [apply Permutation_sym; exact Hpf|auto]).
  assert (HS' : forall f, In f fs -> yields (process_data w d f) (S f)) by (intros f Hf; apply HS; eapply Permutation_in; eauto).
  assert (Ho : own_ids S fs) by (intros f s Hf Hs; eapply process_ids; [apply HS'; eauto|auto]).
  set (ss := map (map (fun a : sample V => [a])) (stream_lists S fs bs)).
  exists (rounds ss).
  assert (Hdis : disjoint_ids ss).
  { unfold disjoint_ids, ss. apply FOP_map. eapply FOP_impl; [|apply (stream_lists_disjoint S fs bs Hn Ho)]. cbn beta.
    intros a b H x y. rewrite !concat_singletons. apply H. }
  split; [|split; [|split; [|split]]].
  - unfold yields, get_streams. fold fs. unfold batch_size_of. rewrite Hbs. cbn [bind]. rewrite slices_ok by auto. cbn [bind gres].
    rewrite Hdr, (streams_are w d S fs bs Hb HS'). apply zip_longest_singles.
  - eapply Forall_impl; [|apply (rounds_batches (map (fun _ => 1) ss) ss Hdis)].
    + cbn beta. intros b [H1 H2]. split; auto. replace (list_sum _) with (length ss) in H1.
      * unfold ss, stream_lists, positions in H1. rewrite !map_length, seq_length in H1. lia.
      * clear. induction ss; simpl; auto.
    + assert (G : Forall (Forall (fun b : list (sample V) => 1 <= length b <= 1 /\ NoDup (map sid b))) ss).
      { apply Forall_forall. intros s Hs. apply in_map_iff in Hs as (l & <- & _). apply Forall_forall. intros b Hbb.
        apply in_map_iff in Hbb as (x & <- & _). simpl. split; auto. repeat constructor; auto. }
      clear - G. induction G; simpl; constructor; auto.
  - intros f Hf. assert (Hff : In f fs) by (eapply Permutation_in; [apply Permutation_sym; exact Hpf|auto]).
    apply In_nth_error in Hff as (p & Hp). set (i := (Z.of_nat p mod bs)%Z).
    assert (Hi : (0 <= i < bs)%Z) by (apply Z.mod_pos_bound; auto).
    destruct (rounds_of_file f ss Hdis) as [R1 R2].
    assert (Hin : In (map (fun a : sample V => [a]) (List.concat (map S (picks fs bs i)))) ss).
    { unfold ss, stream_lists. rewrite map_map. apply in_map_iff. exists i. split; auto. unfold positions. apply in_map_iff.
      exists (Z.to_nat i). split; [lia|]. apply in_seq. lia. }
    assert (Hpk : In f (picks fs bs i)) by (apply picks_In; eauto).
    destruct (stream_of_file S fs bs f i Hb Hn Ho Hi) as [E1 _]. specialize (E1 Hpk).
    destruct (R1 _ Hin) as [E|E]; rewrite concat_singletons, E1 in E; auto.
    rewrite E. apply R2. intros s Hs. apply in_map_iff in Hs as (l & <- & Hl). rewrite concat_singletons.
    apply in_map_iff in Hl as (j & <- & Hj). apply pos_range in Hj. destruct (stream_of_file S fs bs f j Hb Hn Ho Hj) as [F1 F2].
    destruct (in_dec String.string_dec f (picks fs bs j)) as [Hjp|Hjp]; [rewrite F1; auto|auto].
  - intros s Hs. apply rounds_in in Hs as (t & Ht & Hs). apply in_map_iff in Ht as (l & <- & Hl). rewrite concat_singletons in Hs.
    apply in_map_iff in Hl as (j & <- & Hj). apply pos_range in Hj. apply concat_in in Hs as [Hs _].
    + apply picks_incl in Hs; auto. eapply Permutation_in; eauto.
    + intros g x Hg. apply Ho. eapply picks_incl; eauto.
  - intros Hc. rewrite rounds_head. split.
    2: { rewrite <- (Permutation_length Hpf). unfold ss, stream_lists, positions. rewrite !map_map, length_concat_sum, map_map.
         rewrite (map_ext_in _ (fun k => if k <? length fs then 1 else 0)); [apply min_count|].
         intros k Hk. apply in_seq in Hk.
         destruct (Nat.ltb_spec k (length fs)) as [G|G].
         - destruct (nth_error fs k) as [f|] eqn:Ef; [|apply nth_error_None in Ef; lia].
           assert (Hf : In f (picks fs bs (Z.of_nat k))) by (apply picks_In; [lia|lia|exists k; split; [auto|apply Z.mod_small; lia]]).
           destruct (picks fs bs (Z.of_nat k)) as [|g t] eqn:Ep; [destruct Hf|].
           assert (Hg : In g fs) by (apply (picks_incl fs bs (Z.of_nat k)); [lia|rewrite Ep; left; auto]).
           destruct (Hc g) as [Hne _]; [eapply Permutation_in; eauto|]. cbn [map List.concat].
           destruct (S g) as [|x l]; [congruence|reflexivity].
         - destruct (picks fs bs (Z.of_nat k)) as [|g t] eqn:Ep; [reflexivity|]. exfalso.
           assert (Hg : In g (picks fs bs (Z.of_nat k))) by (rewrite Ep; left; auto).
           apply picks_In in Hg as (q & Hq & Eq); [|lia|lia]. assert (Hq2 : q < length fs) by (apply nth_error_Some; congruence).
           rewrite Z.mod_small in Eq; lia. }
    apply Forall_forall. intros x Hx. apply in_concat in Hx as (b & Hbb & Hx).
    apply in_map_iff in Hbb as (s & <- & Hs). apply in_map_iff in Hs as (l & <- & Hl). apply in_map_iff in Hl as (j & <- & Hj).
    apply pos_range in Hj. destruct (picks fs bs j) as [|f t] eqn:E; [destruct Hx|].
    assert (Hf : In f fs) by (apply (picks_incl fs bs j f Hj); rewrite E; left; auto).
    destruct (Hc f) as [Hne Hfl]; [eapply Permutation_in; eauto|]. cbn [map List.concat] in Hx.
    destruct (S f) as [|x0 l0] eqn:Es; [congruence|]. cbn in Hx. destruct Hx as [<-|[]]. apply (Hfl 0 x0 eq_refl).
Qed.

End Dataset.

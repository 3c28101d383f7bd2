(** Proofs for the end-to-end statement. *)

From Coq Require Import String List ZArith Bool Lia.
From Coq Require Import ZifyBool.
From Verif Require Import Py Meta MetaSpec MetaProofs MetaLenProofs MetaSplitProofs MetaBatchProofs Pad Conv ConvSpec ConvProofs
  ConvRunProofs ConvStreamProofs ConvMoreProofs Stack StackSpec StackProofs PadProofs Collector CollectorSpec CollectorProofs Pipeline PipelineSpec.
Import ListNotations.
Open Scope nat_scope.

Section PipelineProofs.
Context {V : Type}.
Implicit Types (d : list V) (l : list (chunk V)).

(* ---------- cutting one stream ---------- *)

(** Consecutive non-empty intervals from a to e. *)
Fixpoint schain (a : Z) (bs : list (Z * Z)) (e : Z) : Prop :=
  match bs with
  | [] => a = e
  | (x, y) :: t => (x = a /\ x < y)%Z /\ schain y t e
  end.

Definition piece d (p : Z * Z) : list V := firstn (Z.to_nat (snd p - fst p)) (skipn (Z.to_nat (fst p)) d).

Lemma schain_le : forall bs a e, schain a bs e -> (a <= e)%Z.
Proof. induction bs as [|[x y] t IH]; intros a e H; simpl in H; [lia|]. destruct H as [H1 H2]. apply IH in H2. lia. Qed.

Lemma schain_chain : forall bs a e, schain a bs e -> chain a bs e.
Proof. induction bs as [|[x y] t IH]; intros a e H; simpl in *; auto. destruct H as [H1 H2]. repeat split; try lia. auto. Qed.

Lemma schain_concat d : forall bs a e, schain a bs e -> (0 <= a)%Z -> e = Z.of_nat (length d) ->
  List.concat (map (piece d) bs) = skipn (Z.to_nat a) d.
Proof.
  induction bs as [|[x y] t IH]; intros a e H Ha He; simpl in H.
  - subst. rewrite Nat2Z.id, skipn_all. reflexivity.
  - destruct H as [[-> Hxy] H]. cbn [map List.concat]. rewrite (IH y e H) by (auto; lia).
    unfold piece. cbn [fst snd]. replace (skipn (Z.to_nat y) d) with (skipn (Z.to_nat (y - a)) (skipn (Z.to_nat a) d)).
    + apply firstn_skipn.
    + rewrite skipn_skipn. f_equal. lia.
Qed.

Lemma schain_nth : forall bs a e k x y, schain a bs e -> nth_error bs k = Some (x, y) ->
  (x < y)%Z /\ (a <= x)%Z /\ (y <= e)%Z /\ (x = a <-> k = 0) /\ (y = e <-> S k = length bs).
Proof.
  induction bs as [|[u v] t IH]; intros a e [|k] x y H Hk; cbn [nth_error] in Hk; try discriminate.
  - inversion Hk; subst. destruct H as [[-> Huv] H]. pose proof (schain_le _ _ _ H). split; [auto|]. split; [lia|]. split; [lia|].
    split; [split; auto|]. cbn [length]. destruct t as [|[u v] t]; [cbn in H; cbn [length]; lia|].
    destruct H as [[-> Hv] H]. apply schain_le in H. cbn [length]. split; intros; try lia.
  - destruct H as [[-> Huv] H]. destruct (IH v e k x y H Hk) as (A & B & C & D & E). split; auto. split; [lia|]. split; auto.
    split; [split; intros; try lia; discriminate|]. cbn [length]. lia.
Qed.

Definition cut_chunks (i : string) d (bs : list (Z * Z)) : list (chunk V) :=
  map (fun p => mkChunk i (fst p =? 0)%Z (snd p =? Z.of_nat (length d))%Z (piece d p) 0%Z) bs.

Lemma cut_complete i d bs : d <> [] -> schain 0 bs (Z.of_nat (length d)) ->
  complete (cut_chunks i d bs) /\ data_of (cut_chunks i d bs) = d /\
  Forall (fun r => cid r = i /\ cdat r <> []) (cut_chunks i d bs).
Proof.
  intros Hd H. split; [split|split].
  - unfold cut_chunks. destruct bs; [cbn in H; destruct d; [congruence|cbn in H; lia]|discriminate].
  - intros k r Hk. unfold cut_chunks in *. rewrite map_length. apply nth_error_map' in Hk as ((x & y) & Hk & ->).
    destruct (schain_nth _ _ _ _ _ _ H Hk) as (A & B & C & D & E). cbn [csos ceos fst snd]. lia.
  - unfold data_of, cut_chunks. rewrite map_map. cbn [cdat].
    change (List.concat (map (piece d) bs) = d). rewrite (schain_concat d bs 0 _ H) by lia. reflexivity.
  - apply Forall_forall. intros r Hr. unfold cut_chunks in Hr. apply in_map_iff in Hr as ((x & y) & <- & Hin). split; auto.
    cbn [cdat]. apply In_nth_error in Hin as (k & Hk). destruct (schain_nth _ _ _ _ _ _ H Hk) as (A & B & C & _).
    intros E. apply (f_equal (@length V)) in E. unfold piece in E. cbn [fst snd] in E. rewrite firstn_length, skipn_length in E. cbn [length] in E. lia.
Qed.

Lemma sections_schain : forall secs acc, Forall (fun k => 0 < k)%Z secs ->
  schain acc (zip (acc :: init (cumsum_from acc secs)) (cumsum_from acc secs)) (acc + zsum secs).
Proof.
  induction secs as [|k secs IH]; intros acc HF.
  - cbn. lia.
  - inversion_clear HF. cbn [cumsum_from].
    assert (E : zip (acc :: init ((acc + k)%Z :: cumsum_from (acc + k) secs)) ((acc + k)%Z :: cumsum_from (acc + k) secs)
              = (acc, (acc + k)%Z) :: zip ((acc + k)%Z :: init (cumsum_from (acc + k) secs)) (cumsum_from (acc + k) secs)).
    { destruct secs; reflexivity. }
    rewrite E. cbn [schain]. split; [lia|].
    replace (acc + zsum (k :: secs))%Z with (acc + k + zsum secs)%Z by (cbn [zsum fold_right]; unfold zsum; lia).
    apply IH; auto.
Qed.

Lemma sections_pieces d : forall secs acc, (0 <= acc)%Z -> Forall (fun k => 0 < k)%Z secs ->
  take_sections secs (skipn (Z.to_nat acc) d) = map (piece d) (zip (acc :: init (cumsum_from acc secs)) (cumsum_from acc secs)).
Proof.
  induction secs as [|k secs IH]; intros acc Ha HF; [reflexivity|]. inversion_clear HF. cbn [cumsum_from take_sections].
  assert (E : zip (acc :: init ((acc + k)%Z :: cumsum_from (acc + k) secs)) ((acc + k)%Z :: cumsum_from (acc + k) secs)
            = (acc, (acc + k)%Z) :: zip ((acc + k)%Z :: init (cumsum_from (acc + k) secs)) (cumsum_from (acc + k) secs)).
  { destruct secs; reflexivity. }
  rewrite E. cbn [map]. f_equal.
  - unfold piece. cbn [fst snd]. f_equal. lia.
  - rewrite skipn_skipn. replace (Z.to_nat k + Z.to_nat acc) with (Z.to_nat (acc + k)) by lia. apply IH; auto. lia.
Qed.

Lemma int_schain k mx : (1 <= k)%Z -> forall n a, (0 <= a <= mx)%Z -> (Z.to_nat (mx - a) <= n) ->
  schain a (map (fun i => (i, Z.min (i + k) mx)) (py_range a mx k)) mx.
Proof.
  intros Hk; induction n; intros a Ha Hn.
  - rewrite py_range_nil by lia. cbn; lia.
  - destruct (Z.eq_dec a mx) as [->|Hne].
    + rewrite py_range_nil by lia. cbn; lia.
    + rewrite py_range_cons by lia. cbn [map schain]. split; try lia.
      destruct (Z_le_gt_dec (a + k) mx).
      * replace (Z.min (a + k) mx) with (a + k)%Z by lia. apply IHn; lia.
      * rewrite py_range_nil by lia. cbn; lia.
Qed.

Lemma int_pieces d k : (1 <= k)%Z -> forall n a, (0 <= a)%Z -> Z.to_nat (Z.of_nat (length d) - a) <= n ->
  chunks_of (Z.to_nat k) (skipn (Z.to_nat a) d)
  = map (piece d) (map (fun i => (i, Z.min (i + k) (Z.of_nat (length d)))) (py_range a (Z.of_nat (length d)) k)).
Proof.
  intros Hk; induction n; intros a Ha Hn.
  - rewrite py_range_nil by lia. rewrite skipn_all2 by lia. reflexivity.
  - destruct (Z_lt_ge_dec a (Z.of_nat (length d))) as [Hlt|Hge].
    + rewrite py_range_cons by lia. rewrite chunks_of_cons; [|lia|].
      * cbn [map]. f_equal.
        -- unfold piece. cbn [fst snd]. destruct (Z_le_gt_dec (a + k) (Z.of_nat (length d))).
           ++ f_equal. lia.
           ++ rewrite !firstn_all2 by (rewrite skipn_length; lia). reflexivity.
        -- rewrite skipn_skipn. replace (Z.to_nat k + Z.to_nat a) with (Z.to_nat (a + k)) by lia. apply IHn; lia.
      * intros E. apply (f_equal (@length V)) in E. rewrite skipn_length in E. cbn [length] in E. lia.
    + rewrite py_range_nil by lia. rewrite skipn_all2 by lia. reflexivity.
Qed.

Lemma cut_bounds d s : d <> [] -> proper_cut (length d) s ->
  exists bs, split_bounds s (Z.of_nat (length d)) = Ok bs /\ schain 0 bs (Z.of_nat (length d)) /\ tensor_split s d = Ok (map (piece d) bs).
Proof.
  intros Hd Hs. destruct s as [k|secs]; cbn [proper_cut] in Hs.
  - eexists. rewrite split_int_bounds by lia. split; [reflexivity|]. split.
    + apply int_schain with (Z.to_nat (Z.of_nat (length d))); lia.
    + cbn [tensor_split]. unfold tensor_split_int. replace (k <? 0)%Z with false by lia. replace (k =? 0)%Z with false by lia.
      f_equal. rewrite <- (int_pieces d k Hs (length d) 0) by lia. destruct d; [congruence|reflexivity].
  - destruct Hs as [HF Hs]. eexists. rewrite split_list_bounds by lia. split; [reflexivity|]. unfold cumsum. split.
    + rewrite <- Hs. apply (sections_schain secs 0). auto.
    + cbn [tensor_split]. unfold tensor_split_list. replace (forallb _ _) with true.
      * replace (zsum secs =? zlen d)%Z with true by (unfold zlen; lia). cbn [andb]. f_equal. apply (sections_pieces d secs 0); auto. lia.
      * symmetry. apply forallb_forall. intros k Hk. rewrite Forall_forall in HF. specialize (HF k Hk). lia.
Qed.

Lemma zip_map_both {A B C} (f : A -> B) (g : A -> C) (l : list A) : zip (map f l) (map g l) = map (fun a => (f a, g a)) l.
Proof. induction l; simpl; auto. now rewrite IHl. Qed.

Lemma split_at i d s : d <> [] -> proper_cut (length d) s ->
  exists bs, split_single (single_tensor false (mkChunk i true true d 0%Z)) s = Ok (map (single_tensor false) (cut_chunks i d bs)) /\
    schain 0 bs (Z.of_nat (length d)) /\ tensor_split s d = Ok (map (piece d) bs).
Proof.
  intros Hd Hs. destruct (cut_bounds d s Hd Hs) as (bs & Hb & Hc & Ht).
  exists bs. split; [|now split].
  unfold split_single. cbn [single_tensor sd sm cdat cid csos ceos]. rewrite Ht. cbn [bind].
  set (n := Z.of_nat (length d)) in *.
  change (mkMeta [i] [true] [true] [n] None) with (of_rows false [mkRow i true true n 0%Z]).
  assert (Hn : (0 < n)%Z) by (unfold n; destruct d; [congruence|cbn [length]; lia]).
  rewrite (split_length_raw false [mkRow i true true n 0%Z] n s bs n); auto.
  - cbn [bind]. rewrite map_map, zip_map_both, map_map. f_equal. unfold cut_chunks. rewrite map_map. apply map_ext_in. intros (x & y) Hin.
    apply In_nth_error in Hin as (k & Hk). destruct (schain_nth _ _ _ _ _ _ Hc Hk) as (A & B & C & D & E).
    unfold single_tensor. cbn [fst snd cid csos ceos cdat cch map]. f_equal. unfold of_rows, row_cut. cbn [map rid rsos reos rlen rch].
    f_equal; f_equal; try lia. unfold piece. cbn [fst snd]. rewrite firstn_length, skipn_length. unfold n in *. lia.
  - repeat constructor. cbn. lia.
  - split; [exists (mkRow i true true n 0%Z); cbn; auto|]. intros r [<-|[]]. cbn. lia.
  - now apply schain_chain.
Qed.

Theorem split_whole i d s : d <> [] -> proper_cut (length d) s ->
  exists l, split_single (single_tensor false (mkChunk i true true d 0%Z)) s = Ok (map (single_tensor false) l) /\
    complete l /\ data_of l = d /\ Forall (fun r => cid r = i /\ cdat r <> []) l.
Proof.
  intros Hd Hs. destruct (split_at i d s Hd Hs) as (bs & E & Hc & _).
  exists (cut_chunks i d bs). split; [exact E|now apply cut_complete].
Qed.

(* ---------- non-empty chunks of a complete stream ---------- *)

Definition nonempty (r : chunk V) : bool := negb (Nat.eqb (length (cdat r)) 0).

Lemma data_of_nonempty l : data_of (filter nonempty l) = data_of l.
Proof.
  unfold data_of. induction l as [|r l IH]; auto. cbn [filter map List.concat]. unfold nonempty at 1.
  destruct (cdat r) eqn:E; cbn [length Nat.eqb negb]; [auto|]. cbn [map List.concat]. now rewrite IH, E.
Qed.

Lemma complete_shape l : complete l -> (exists r, l = [r] /\ csos r = true /\ ceos r = true) \/
  (exists f m e, l = f :: m ++ [e] /\ csos f = true /\ ceos f = false /\ csos e = false /\ ceos e = true /\
     Forall (fun r => csos r = false /\ ceos r = false) m).
Proof.
  intros [Hne H]. destruct l as [|f l]; [congruence|]. destruct l as [|e m _] using rev_ind.
  - left. exists f. split; auto. apply (H 0 f eq_refl).
  - right. exists f, m, e. split; auto.
    destruct (H 0 f eq_refl) as [A B]. cbn [length] in B. rewrite app_length in B. cbn [length] in B.
    destruct (H (S (length m)) e) as [C D]; [cbn [nth_error]; rewrite nth_error_app2, Nat.sub_diag; auto|].
    cbn [length] in D. rewrite app_length in D. cbn [length] in D. split; auto. split; [lia|]. split; auto. split; [lia|].
    apply Forall_forall. intros r Hr. apply In_nth_error in Hr as (k & Hk).
    assert (k < length m) by (apply nth_error_Some; congruence).
    destruct (H (S k) r) as [E F]; [cbn [nth_error]; rewrite nth_error_app1; auto|].
    cbn [length] in F. rewrite app_length in F. cbn [length] in F. split; auto. lia.
Qed.

Lemma shape_conforming f m e : csos f = true -> ceos f = false -> csos e = false -> 
  Forall (fun r : chunk V => csos r = false /\ ceos r = false) m -> conforming (f :: m ++ [e]).
Proof.
  intros A B C H k r Hk. destruct k as [|k]; cbn [nth_error] in Hk; [inversion Hk; subst; split; auto; congruence|].
  cbn [Nat.eqb length]. rewrite app_length. cbn [length]. destruct (Nat.lt_ge_cases k (length m)) as [Hlt|Hge].
  - rewrite nth_error_app1 in Hk by auto. apply nth_error_In in Hk. rewrite Forall_forall in H. destruct (H r Hk). split; auto; congruence.
  - rewrite nth_error_app2 in Hk by auto. destruct (k - length m) as [|j] eqn:Ej; [|destruct j; discriminate].
    cbn in Hk. inversion Hk; subst. split; auto. intros _. lia.
Qed.

Lemma filter_m m : Forall (fun r : chunk V => csos r = false /\ ceos r = false) m ->
  Forall (fun r : chunk V => csos r = false /\ ceos r = false) (filter nonempty m).
Proof. intros H. rewrite Forall_forall in *. intros r Hr. apply filter_In in Hr as [Hr _]. auto. Qed.

Lemma nonempty_conforming i l : complete l -> flagged_nonempty l -> Forall (fun r => cid r = i) l ->
  conforming (filter nonempty l) /\
  joined false (filter nonempty l) (mkSingle (data_of l) (mkMeta [i] [true] [true] [Z.of_nat (length (data_of l))] None)).
Proof.
  intros Hc Hf Hi. pose proof (data_of_nonempty l) as Hd. unfold flagged_nonempty in Hf. rewrite Forall_forall in Hf, Hi.
  assert (Hk : forall r, In r l -> csos r = true \/ ceos r = true -> nonempty r = true).
  { intros r Hr Hfl. specialize (Hf r Hr Hfl). unfold nonempty. destruct (cdat r); [congruence|reflexivity]. }
  destruct (complete_shape l Hc) as [(r & -> & A & B)|(f & m & e & -> & A & B & C & D & E)].
  - assert (Hr : nonempty r = true) by (apply Hk; [left|]; auto). cbn [filter] in *. rewrite Hr in *. split.
    + intros [|k] q Hq; [|destruct k; discriminate]. inversion Hq; subst. split; auto.
    + exists r, r. split; auto. split; auto. rewrite A, B, (Hi r) by (left; auto). reflexivity.
  - assert (Hf' : nonempty f = true) by (apply Hk; [left|]; auto).
    assert (He' : nonempty e = true) by (apply Hk; [right; apply in_app_iff; right; left|]; auto).
    assert (Eq : filter nonempty (f :: m ++ [e]) = f :: filter nonempty m ++ [e]).
    { cbn [filter]. rewrite Hf', filter_app. cbn [filter]. now rewrite He'. }
    rewrite Eq in *. split.
    + apply shape_conforming; auto. now apply filter_m.
    + exists f, e. split; [reflexivity|]. split.
      * cbn [length]. rewrite app_length. cbn [length]. replace (S (length (filter nonempty m) + 1) - 1) with (S (length (filter nonempty m))) by lia.
        cbn [nth_error]. rewrite nth_error_app2, Nat.sub_diag; auto.
      * rewrite Hd, A, D, (Hi f) by (left; auto). reflexivity.
Qed.

(* ---------- layers keep ids and flags ---------- *)

Lemma layer_follows (L : layer V) l : Forall2 follows l (layer_chunks L l).
Proof.
  destruct L as [c|g]; cbn [layer_chunks]; [apply ideal_follows|]. induction l; constructor; auto. repeat split.
Qed.

Lemma stack_follows : forall (Ls : list (layer V)) l, Forall2 follows l (fold_left (fun l L => layer_chunks L l) Ls l).
Proof.
  induction Ls as [|L Ls IH]; intros l; cbn [fold_left].
  - induction l; constructor; auto. repeat split.
  - pose proof (layer_follows L l) as H1. pose proof (IH (layer_chunks L l)) as H2. revert H1 H2.
    generalize (fold_left (fun l L => layer_chunks L l) Ls (layer_chunks L l)). generalize (layer_chunks L l). clear.
    intros b d H1. revert d. induction H1 as [|r q l b (A & B & C & D) H IH]; intros d H2; inversion H2 as [|? ? ? ? HX HY]; subst; constructor; auto.
    destruct HX as (A' & B' & C' & D'). unfold follows. rewrite A', B', C', D'. auto.
Qed.

Lemma follows_ids i (l1 l2 : list (chunk V)) : Forall2 follows l1 l2 -> Forall (fun r => cid r = i) l1 -> Forall (fun r => cid r = i) l2.
Proof. induction 1 as [|r q l1 l2 (E & _) HF IH]; intros H; auto. inversion H; subst. constructor; auto. Qed.

Lemma survives_through_survives : forall (Ls : list (layer V)) l, survives_through Ls l ->
  survives Ls l /\ flagged_nonempty (fold_left (fun l L => layer_chunks L l) Ls l).
Proof.
  induction Ls as [|L Ls IH]; intros l [H1 H2]; cbn [survives fold_left]; auto. apply IH in H2 as [H2 H3]. auto.
Qed.

Lemma survives_nil : forall (Ls : list (layer V)), survives Ls [].
Proof.
  induction Ls as [|L Ls IH]; cbn [survives]; auto. split; [constructor|]. destruct L; exact IH.
Qed.

Lemma stack_nil : forall (Ls : list (layer V)), fold_left (fun l L => layer_chunks L l) Ls [] = [].
Proof. induction Ls as [|L Ls IH]; auto. destruct L; exact IH. Qed.

(* ---------- the schedule ---------- *)

Definition tens_of (g : list (chunk V)) : tens V := mkTens (longest g) false g.

Lemma pad_steps z (sched : list (list (chunk V))) : Forall (fun g => g <> []) sched ->
  mapM (pad_stream_tensor z) (map (map (single_tensor false)) sched) = Ok (map (tensor_of z) (map tens_of sched)).
Proof.
  intros H. unfold mapM. rewrite map_map. fold (mapM (fun g => pad_stream_tensor z (map (single_tensor false) g)) sched).
  rewrite map_map. apply mapM_ok. intros g Hg. rewrite Forall_forall in H. exact (rebatch z false g (H g Hg)).
Qed.

Lemma rows_tens_of (sched : list (list (chunk V))) : map trows (map tens_of sched) = sched.
Proof. rewrite map_map. cbn [tens_of trows]. apply map_id. Qed.

Lemma complete_protocol l : complete l -> protocol false l.
Proof.
  intros Hc. destruct (complete_shape l Hc) as [(r & -> & A & B)|(f & m & e & -> & A & B & C & D & E)]; cbn [protocol].
  - rewrite A. auto.
  - split; [now rewrite A|]. rewrite B. cbn [negb]. clear - C D E. induction m as [|r m IH]; cbn [app protocol].
    + rewrite C. auto.
    + inversion E as [|? ? [H1 H2] H3]; subst. rewrite H1, H2. split; auto.
Qed.

Lemma Forall2_conj {A B} (P Q : A -> B -> Prop) (l1 : list A) (l2 : list B) : Forall2 P l1 l2 -> Forall2 Q l1 l2 -> Forall2 (fun a b => P a b /\ Q a b) l1 l2.
Proof. induction 1; intros H2; inversion H2; subst; constructor; auto. Qed.

Lemma Forall2_in_l {A B} (P : A -> B -> Prop) (l1 : list A) (l2 : list B) a : Forall2 P l1 l2 -> In a l1 -> exists b, In b l2 /\ P a b.
Proof. induction 1; intros Ha; [destruct Ha|]. destruct Ha as [->|Ha]; [exists y; simpl; auto|]. destruct (IHForall2 Ha) as (b & Hb & HP). exists b. simpl; auto. Qed.

(** Stream of an id in the schedule: either that of an item or nothing. *)
Lemma sched_stream items pieces (sched : list (list (chunk V))) i : items_ok items pieces -> scheduled items pieces sched ->
  (exists d, In (i, d) items /\ In (stream_of i sched) pieces /\ complete (stream_of i sched) /\ data_of (stream_of i sched) = d /\
     Forall (fun r => cid r = i /\ cdat r <> []) (stream_of i sched)) \/ stream_of i sched = [].
Proof.
  intros Hit (_ & HF & Hin). destruct (in_dec String.string_dec i (map fst items)) as [Hi|Hi].
  - left. apply in_map_iff in Hi as ((j & d) & E & Hi). cbn [fst] in E. subst j. exists d. split; auto.
    destruct (Forall2_in_l _ _ _ _ (Forall2_conj _ _ _ _ Hit HF) Hi) as (l & Hl & (A & B & C) & D). cbn [fst snd] in *.
    subst l. auto.
  - right. unfold stream_of. destruct (filter _ _) as [|r l] eqn:E; auto. exfalso. apply Hi.
    assert (Hr : In r (filter (fun r => String.eqb (cid r) i) (List.concat sched))) by (rewrite E; left; auto).
    apply filter_In in Hr as [Hr He]. apply String.eqb_eq in He. subst i. auto.
Qed.

Lemma sched_good items pieces (sched : list (list (chunk V))) : items_ok items pieces -> scheduled items pieces sched -> good_schedule sched.
Proof.
  intros Hit Hs. split.
  - pose proof Hs as (Hg & _ & Hin). rewrite Forall_forall in *. intros g Hgi. destruct (Hg g Hgi) as [A B]. split; [auto|split; [auto|]].
    apply Forall_forall. intros r Hr _. destruct (sched_stream items pieces sched (cid r) Hit Hs) as [(d & _ & _ & _ & _ & H)|H].
    + rewrite Forall_forall in H. apply H. apply filter_In. split; [apply in_concat; eauto|apply String.eqb_refl].
    + exfalso. assert (In r (stream_of (cid r) sched)) by (apply filter_In; split; [apply in_concat; eauto|apply String.eqb_refl]).
      rewrite H in H0. destruct H0.
  - intros i. destruct (sched_stream items pieces sched i Hit Hs) as [(d & _ & _ & H & _)|H]; [now apply complete_protocol|now rewrite H].
Qed.

Theorem online_collected Ls z z' items pieces sched ys : Forall good_layer Ls -> zero_preserving z Ls z' ->
  NoDup (map fst items) -> items_ok items pieces -> scheduled items pieces sched -> Forall (survives_through Ls) pieces ->
  stream_through Ls z (map (map (single_tensor false)) sched) = Ok ys ->
  exists c, update new_collector (map InBatch ys) = (c, None) /\
    forall i d, In (i, d) items -> entries c i = Some (mkSingle (stack_offline Ls d)
      (mkMeta [i] [true] [true] [Z.of_nat (length (stack_offline Ls d))] None)).
Proof.
  intros HL Hz Hnd Hit Hs Hsv H. pose proof (sched_good _ _ _ Hit Hs) as Hg.
  unfold stream_through in H. rewrite pad_steps in H by (destruct Hs as (Hg0 & _); rewrite Forall_forall in *; intros g Hgi; apply (Hg0 g Hgi)).
  cbn [bind] in H. apply bind_ok in H as ((ys' & sts) & Hrun & E). inversion E; subst ys'. clear E.
  assert (Hsurv : forall i, survives Ls (stream_of i sched)).
  { intros i. destruct (sched_stream items pieces sched i Hit Hs) as [(d & _ & Hp & _)|E]; [|rewrite E; apply survives_nil].
    rewrite Forall_forall in Hsv. apply survives_through_survives, Hsv, Hp. }
  destruct (stack_spec z' Ls z (map tens_of sched) ys sts) as (outs & -> & Ht & HF & Hth & Ho); auto.
  { now rewrite rows_tens_of. }
  { apply Forall_forall. intros t Hti. apply in_map_iff in Hti as (g & <- & _). reflexivity. }
  { now rewrite rows_tens_of. }
  rewrite rows_tens_of in *.
  assert (Hthf : Forall (fun t => th t = false) outs).
  { apply Hth. apply Forall_forall. intros t Hti. apply in_map_iff in Hti as (g & <- & _). reflexivity. }
  set (ds := map (fun t => DBatch (tw t) (trows t)) outs).
  assert (Eds : map (@InBatch V) (map (tensor_of z') outs) = map (as_input z' false) ds).
  { unfold ds. rewrite !map_map. apply map_ext_in. intros t Hti. cbn [as_input]. rewrite Forall_forall in Hthf.
    rewrite <- (Hthf t Hti). now destruct t. }
  assert (Estr : forall i, stream_of i (map delivered ds) = filter nonempty (stream_of i (map trows outs))).
  { intros i. unfold ds. rewrite map_map. cbn [delivered]. unfold stream_of. clear. induction outs as [|t outs IH]; auto.
    cbn [map List.concat]. rewrite !filter_app, IH. f_equal. induction (trows t) as [|r rs IHr]; auto. cbn [filter].
    fold (nonempty r). destruct (nonempty r) eqn:En, (String.eqb (cid r) i) eqn:Ei; cbn [filter]; rewrite ?En, ?Ei, ?IHr; auto. }
  assert (Hout : forall i, stream_of i (map trows outs) = [] \/
    (complete (stream_of i (map trows outs)) /\ flagged_nonempty (stream_of i (map trows outs)) /\
     Forall (fun r => cid r = i) (stream_of i (map trows outs)) /\
     forall d, In (i, d) items -> data_of (stream_of i (map trows outs)) = stack_offline Ls d)).
  { intros i. rewrite Ho. destruct (sched_stream items pieces sched i Hit Hs) as [(d & Hid & Hp & Hc & Hd & Hids)|E].
    - right. rewrite Forall_forall in Hsv. pose proof (Hsv _ Hp) as Hsi. apply survives_through_survives in Hsi as [_ Hfl].
      pose proof (stack_follows Ls (stream_of i sched)) as Hfo. split; [eapply follows_complete; eauto|]. split; auto. split.
      + eapply follows_ids; eauto. rewrite Forall_forall in *. intros r Hr. now apply Hids.
      + intros d' Hid'. assert (d' = d).
        { clear - Hnd Hid Hid'. induction items as [|[j x] t IH]; [destruct Hid|]. cbn [map fst] in Hnd. inversion Hnd; subst.
          destruct Hid as [E|Hid], Hid' as [E'|Hid'].
          - congruence.
          - inversion E; subst. exfalso. apply H1. apply in_map_iff. exists (i, d'). auto.
          - inversion E'; subst. exfalso. apply H1. apply in_map_iff. exists (i, d). auto.
          - auto. }
        subst d'. destruct (stack_segment Ls [] (stream_of i sched) [] HL Hc) as (o1 & o & o2 & E & E1 & E2 & Ed).
        cbn [app] in E. rewrite app_nil_r in E. destruct o1; [|discriminate]. cbn [app] in E.
        assert (o2 = []).
        { apply (f_equal (@length (chunk V))) in E. rewrite app_length in E.
          rewrite <- (Forall2_len _ _ _ Hfo) in E. destruct o2; auto. cbn [length] in E. lia. }
        subst o2. rewrite app_nil_r in E. rewrite E, Ed, Hd. reflexivity.
    - left. rewrite E. apply stack_nil. }
  rewrite Eds. destruct (collects z' false ds) as (c & Hc & Hent).
  - apply Forall_forall. intros d Hd. unfold ds in Hd. apply in_map_iff in Hd as (t & <- & Hti). cbn [wide_enough].
    rewrite Forall_forall in Ht. specialize (Ht t Hti). unfold tight in Ht. lia.
  - intros i. rewrite Estr. destruct (Hout i) as [->|(A & B & C & _)].
    + intros k r Hk. destruct k; discriminate.
    + now apply (nonempty_conforming i).
  - exists c. split; auto. intros i d Hid. destruct (Hent i) as (_ & He & _). apply He. rewrite Estr.
    destruct (Hout i) as [E|(A & B & C & D)].
    + exfalso. rewrite Ho in E. destruct (sched_stream items pieces sched i Hit Hs) as [(d' & _ & _ & [Hne _] & _)|E'].
      * pose proof (stack_follows Ls (stream_of i sched)) as Hfo. rewrite E in Hfo. inversion Hfo. congruence.
      * destruct Hs as (_ & HF2 & _). destruct (Forall2_in_l _ _ _ _ (Forall2_conj _ _ _ _ Hit HF2) Hid) as (l & _ & ([Hne _] & _) & El).
        cbn [fst] in El. congruence.
    + rewrite <- (D d Hid). now apply nonempty_conforming.
Qed.

Theorem end_to_end Ls z z' names items cuts : Forall good_layer Ls -> zero_preserving z Ls z' ->
  ~ In "B"%string names -> In "L"%string names -> items <> [] -> NoDup (map fst items) -> Forall (fun it => snd it <> []) items ->
  Forall2 (fun it s => proper_cut (length (snd it)) s) items cuts ->
  exists x pieces, pad_full_sequence z (map snd items) names (map fst items) = Ok x /\
    chop x cuts = Ok (map (map (single_tensor false)) pieces) /\ items_ok items pieces /\
    forall sched ys, scheduled items pieces sched -> Forall (survives_through Ls) pieces ->
      stream_through Ls z (map (map (single_tensor false)) sched) = Ok ys ->
      exists c, update new_collector (map InBatch ys) = (c, None) /\
        forall i d, In (i, d) items -> entries c i = Some (mkSingle (stack_offline Ls d)
          (mkMeta [i] [true] [true] [Z.of_nat (length (stack_offline Ls d))] None)).
Proof.
  intros HL Hz HB HLn Hne Hnd Hdat Hcut.
  destruct (pad_unpad z names (map fst items) (map snd items)) as (x & Hx & Hu); auto.
  { destruct items; [congruence|discriminate]. }
  { now rewrite !map_length. }
  assert (G : exists pieces, mapM (fun p => split_single (fst p) (snd p))
      (zip (map (fun it => single_tensor false (mkChunk (fst it) true true (snd it) 0%Z)) items) cuts)
      = Ok (map (map (single_tensor false)) pieces) /\ items_ok items pieces).
  { clear - Hcut Hdat. induction Hcut as [|it s items cuts Hs HF IH].
    - exists []. split; [reflexivity|constructor].
    - inversion Hdat; subst. destruct (IH H2) as (pieces & E & Hok). destruct (split_whole (fst it) (snd it) s H1 Hs) as (l & El & Hl).
      exists (l :: pieces). split.
      + unfold mapM in *. cbn [map zip seqM fst snd]. rewrite El. cbn [bind]. cbn [fst snd] in E. rewrite E. reflexivity.
      + constructor; auto. }
  destruct G as (pieces & Hp & Hok). exists x, pieces. split; auto. split.
  - unfold chop. rewrite Hu. cbn [bind]. rewrite <- Hp. f_equal. f_equal. rewrite zip_map_both, map_map. apply map_ext_in.
    intros it Hin. cbn [fst snd]. rewrite Forall_forall in Hdat. specialize (Hdat it Hin). unfold single_tensor. cbn [cdat cid csos ceos].
    destruct (snd it); [congruence|reflexivity].
  - split; auto. intros sched ys Hs Hsv Hrun. eapply online_collected; eauto.
Qed.

End PipelineProofs.

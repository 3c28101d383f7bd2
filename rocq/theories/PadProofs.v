(** Proofs about padding, unpadding and masks. *)

From Coq Require Import String List ZArith Bool Lia.
From Coq Require Import ZifyBool.
From Verif Require Import Py Meta MetaSpec MetaProofs MetaLenProofs MetaSplitProofs MetaBatchProofs Pad Conv ConvSpec ConvProofs.
Import ListNotations.
Open Scope nat_scope.

(* ---------- sequence_mask ---------- *)

Lemma mask_rows lengths T inv : forall i n j, nth_error lengths i = Some n -> j < T ->
  exists row, nth_error (map (fun n => map (fun t => if inv : bool then (n <=? t)%Z else (t <? n)%Z) (map Z.of_nat (seq 0 T))) lengths) i
                = Some row /\ length row = T /\ nth_error row j = Some (xorb inv (Z.of_nat j <? n)%Z).
Proof.
  intros i n j Hi Hj. eexists. rewrite nth_error_map, Hi. cbn [option_map]. split; [reflexivity|]. split.
  - now rewrite !map_length, seq_length.
  - rewrite map_map, nth_error_map.
    rewrite (nth_error_nth' _ 0) by (rewrite seq_length; lia). rewrite seq_nth by lia. cbn [option_map]. f_equal.
    destruct inv; [rewrite Z.leb_antisym; now destruct (_ <? _)%Z|now destruct (_ <? _)%Z].
Qed.

Lemma sequence_mask_ok lengths T inv : (0 <= T)%Z -> forall max_len,
  (match max_len with Some n => if (n =? 0)%Z then zmax lengths else Ok n | None => zmax lengths end) = Ok T ->
  exists m, sequence_mask lengths max_len inv = Ok m /\ length m = length lengths /\
    Forall (fun row => length row = Z.to_nat T) m /\
    forall i n j, nth_error lengths i = Some n -> j < Z.to_nat T ->
      exists row, nth_error m i = Some row /\ nth_error row j = Some (xorb inv (Z.of_nat j <? n)%Z).
Proof.
  intros HT max_len E. unfold sequence_mask. rewrite E. cbn [bind]. replace (T <? 0)%Z with false by lia.
  eexists. split; [reflexivity|]. split; [now rewrite map_length|]. split.
  - apply Forall_forall. intros row H. apply in_map_iff in H as (n & <- & _). now rewrite !map_length, seq_length.
  - intros i n j Hi Hj. destruct (mask_rows lengths (Z.to_nat T) inv i n j Hi Hj) as (row & H1 & _ & H2). eauto.
Qed.

Theorem mask_given lengths w inv : (0 < w)%Z ->
  exists m, sequence_mask lengths (Some w) inv = Ok m /\ length m = length lengths /\
    Forall (fun row => length row = Z.to_nat w) m /\
    forall i n j, nth_error lengths i = Some n -> j < Z.to_nat w ->
      exists row, nth_error m i = Some row /\ nth_error row j = Some (xorb inv (Z.of_nat j <? n)%Z).
Proof. intros Hw. apply sequence_mask_ok; [lia|]. now replace (w =? 0)%Z with false by lia. Qed.

Theorem mask_inferred lengths w inv : In w lengths -> (forall n, In n lengths -> n <= w)%Z -> (0 <= w)%Z ->
  exists m, sequence_mask lengths None inv = Ok m /\ length m = length lengths /\
    Forall (fun row => length row = Z.to_nat w) m /\
    forall i n j, nth_error lengths i = Some n -> j < Z.to_nat w ->
      exists row, nth_error m i = Some row /\ nth_error row j = Some (xorb inv (Z.of_nat j <? n)%Z).
Proof.
  intros Hin Hmax Hw. apply sequence_mask_ok; auto. destruct lengths as [|a l]; [destruct Hin|]. cbn [zmax].
  f_equal. destruct (fold_max_spec l a) as [H1 H2].
  assert (In (fold_left Z.max l a) (a :: l)) by (simpl; destruct H1 as [E|H1]; auto).
  specialize (Hmax _ H). destruct Hin as [->|Hin].
  - destruct H2 as [H2 _]. lia.
  - destruct H2 as [_ H2]. specialize (H2 _ Hin). lia.
Qed.

Theorem mask_rejects lengths width inv e : sequence_mask lengths width inv = Err e <->
  e = RuntimeError /\ match width with
                     | Some w => (w < 0 \/ w = 0 /\ forall n, In n lengths -> n < 0)%Z
                     | None => (forall n, In n lengths -> n < 0)%Z
                     end.
Proof.
  assert (A : forall T, (if (T <? 0)%Z then Err RuntimeError
      else Ok (map (fun n => map (fun t => if inv then (n <=? t)%Z else (t <? n)%Z) (map Z.of_nat (seq 0 (Z.to_nat T)))) lengths)) = Err e
      <-> e = RuntimeError /\ (T < 0)%Z).
  { intros T. destruct (Z.ltb_spec T 0); split; intros H1; [injection H1 as <-; now split|now destruct H1 as [-> _]|discriminate|lia]. }
  assert (B : (do T <- zmax lengths; if (T <? 0)%Z then Err RuntimeError
      else Ok (map (fun n => map (fun t => if inv then (n <=? t)%Z else (t <? n)%Z) (map Z.of_nat (seq 0 (Z.to_nat T)))) lengths)) = Err e
      <-> e = RuntimeError /\ forall n, In n lengths -> (n < 0)%Z).
  { destruct lengths as [|a l]; cbn [zmax bind].
    - split; intros H1; [injection H1 as <-; split; [reflexivity|intros n []]|now destruct H1 as [-> _]].
    - rewrite A. destruct (fold_max_spec l a) as [H1 [H2 H3]]. split; intros [-> H4]; (split; [reflexivity|]).
      + intros n [<-|Hn]; [lia|]. specialize (H3 _ Hn). lia.
      + destruct H1 as [E|Hin]; [rewrite E; apply H4; now left|apply H4; now right]. }
  unfold sequence_mask. destruct width as [w|]; [|exact B]. destruct (Z.eqb_spec w 0) as [->|Hw].
  - rewrite B. split; intros [-> H]; (split; [reflexivity|]); [right; split; [reflexivity|exact H]|destruct H as [H|[_ H]]; [lia|exact H]].
  - cbn [bind]. rewrite A. split; intros [-> H]; (split; [reflexivity|]); [now left|destruct H as [H|[H _]]; [exact H|contradiction]].
Qed.

(* ---------- padding ---------- *)

Section PadProofs.
Context {V : Type}.

Definition full (ids : list string) (seqs : list (list V)) : list (chunk V) :=
  map (fun q => mkChunk (fst q) true true (snd q) 0%Z) (zip ids seqs).

Lemma zip_split {A B} : forall (l1 : list A) (l2 : list B), length l1 = length l2 -> map fst (zip l1 l2) = l1 /\ map snd (zip l1 l2) = l2.
Proof. induction l1; intros [|b l2] H; simpl in *; try discriminate; auto. destruct (IHl1 l2) as [A1 A2]; [lia|]. now rewrite A1, A2. Qed.

Lemma existsb_not_in n names : ~ In n names -> existsb (String.eqb n) names = false.
Proof.
  intros H. destruct (existsb _ _) eqn:E; auto. apply existsb_exists in E as (x & Hx & E). apply String.eqb_eq in E. subst. tauto.
Qed.
Lemma existsb_in n names : In n names -> existsb (String.eqb n) names = true.
Proof. intros H. apply existsb_exists. exists n. split; auto. apply String.eqb_refl. Qed.

Lemma longest_max (rs : list (chunk V)) : max_nat (map (@length V) (map cdat rs)) = longest rs.
Proof. unfold max_nat, longest. now rewrite map_map. Qed.

Lemma pad_chunks_eq (z : V) names (rs : list (chunk V)) : ~ In "B"%string names -> In "L"%string names -> rs <> [] ->
  pad_chunks z (map cdat rs) names (map cid rs) (map csos rs) (map ceos rs) = Ok (batch_of z false rs).
Proof.
  intros HB HL Hne. unfold pad_chunks. rewrite (existsb_not_in _ _ HB), (existsb_in _ _ HL). cbn [negb].
  unfold torch_pad_sequence. destruct rs as [|r0 rs0] eqn:Er; [congruence|]. rewrite <- Er in *.
  replace (map cdat rs) with (cdat r0 :: map cdat rs0) at 1 by now rewrite Er. cbn [bind]. rewrite longest_max.
  unfold make_meta. rewrite !map_length, !Nat.eqb_refl. cbn [andb bind]. f_equal. unfold batch_of, batch_with. f_equal.
  - rewrite map_map. reflexivity.
  - unfold of_rows. rewrite !map_map. reflexivity.
Qed.

Theorem pad_chunks_spec (z : V) names ids0 s e (seqs : list (list V)) :
  ~ In "B"%string names -> In "L"%string names -> seqs <> [] ->
  length ids0 = length seqs -> length s = length seqs -> length e = length seqs ->
  exists w, pad_chunks z seqs names ids0 s e
    = Ok (mkBatch w (map (fun d => d ++ repeat z (w - length d)) seqs)
                  (mkMeta ids0 s e (map (fun d => Z.of_nat (length d)) seqs) None)) /\
    (exists d, In d seqs /\ length d = w) /\ (forall d, In d seqs -> length d <= w).
Proof.
  intros HB HL Hne H1 H2 H3. unfold pad_chunks. rewrite (existsb_not_in _ _ HB), (existsb_in _ _ HL). cbn [negb].
  exists (max_nat (map (@length V) seqs)). split.
  - unfold torch_pad_sequence. destruct seqs as [|d0 ds]; [congruence|]. cbn [bind]. unfold make_meta.
    unfold zlen. rewrite map_length, H1, H2, H3, !Nat.eqb_refl. reflexivity.
  - clear - Hne. split.
    + induction seqs as [|d ds IH]; [congruence|]. destruct ds as [|d1 ds1].
      * exists d. simpl. split; auto. lia.
      * destruct IH as (d' & Hd & E); [discriminate|]. change (max_nat (map (@length V) (d :: d1 :: ds1)))
          with (Nat.max (length d) (max_nat (map (@length V) (d1 :: ds1)))).
        destruct (Nat.max_spec (length d) (max_nat (map (@length V) (d1 :: ds1)))) as [[_ ->]|[_ ->]];
          [exists d'; simpl; auto|exists d; simpl; auto].
    + intros d Hd. induction seqs as [|d1 ds IH]; [destruct Hd|]. simpl. destruct Hd as [->|Hd]; [lia|].
      destruct ds; [destruct Hd|]. specialize (IH ltac:(discriminate) Hd). unfold max_nat in *. lia.
Qed.

Theorem pad_unpad (z : V) names ids0 (seqs : list (list V)) :
  ~ In "B"%string names -> In "L"%string names -> seqs <> [] -> length ids0 = length seqs ->
  exists x, pad_full_sequence z seqs names ids0 = Ok x /\
    unpad_sequence x = Ok (map (fun q : string * list V =>
      let f := match snd q with [] => false | _ => true end in
      mkSingle (snd q) (mkMeta [fst q] [f] [f] [Z.of_nat (length (snd q))] None)) (zip ids0 seqs)).
Proof.
  intros HB HL Hne Hl. pose proof (zip_split ids0 seqs Hl) as [E1 E2].
  assert (Hf : full ids0 seqs <> []). { unfold full. destruct seqs, ids0; simpl in *; try discriminate; congruence. }
  exists (batch_of z false (full ids0 seqs)). split.
  - rewrite <- (pad_chunks_eq z names (full ids0 seqs)) by auto. unfold pad_full_sequence, full. rewrite !map_map. cbn [cdat cid csos ceos].
    change (map (fun x : string * list V => fst x) (zip ids0 seqs)) with (map fst (zip ids0 seqs)).
    change (map (fun x : string * list V => snd x) (zip ids0 seqs)) with (map snd (zip ids0 seqs)).
    rewrite E1, E2. replace (map (fun _ : string * list V => true) (zip ids0 seqs)) with (map (fun _ : list V => true) seqs); auto.
    rewrite <- E2 at 1. now rewrite map_map.
  - unfold batch_of. rewrite unpad_eq by lia. f_equal. unfold full. rewrite map_map. apply map_ext. intros [i d]. cbn [fst snd].
    unfold unflag. cbn [cdat cid cch]. destruct d; reflexivity.
Qed.

(** A stream chunk without batch dimension. *)
Theorem rebatch (z : V) h (rs : list (chunk V)) : rs <> [] ->
  pad_stream_tensor z (map (fun r => mkSingle (cdat r)
      (mkMeta [cid r] [csos r] [ceos r] [Z.of_nat (length (cdat r))] (if h : bool then Some [cch r] else None))) rs)
  = Ok (tensor_of z (mkTens (longest rs) false rs)).
Proof. intros H. exact (pad_stream_eq z h rs H). Qed.

Theorem unpad_rows (z : V) w h (rs : list (chunk V)) : longest rs <= w ->
  unpad_sequence (tensor_of z (mkTens w h rs)) = Ok (map (fun r => mkSingle (cdat r)
      (mkMeta [cid r] [match cdat r with [] => false | _ => csos r end] [match cdat r with [] => false | _ => ceos r end]
              [Z.of_nat (length (cdat r))] (if h : bool then Some [cch r] else None))) rs).
Proof.
  intros H. unfold tensor_of. cbn [tw th trows]. rewrite unpad_eq by auto. f_equal. apply map_ext. intros r.
  unfold unflag. destruct (cdat r) eqn:E; unfold single_of; cbn [cdat]; rewrite ?E; unfold of_rows, brow_of; cbn [map cdat cid csos ceos cch rid rsos reos rlen rch].
  - reflexivity.
  - now rewrite E.
Qed.

End PadProofs.

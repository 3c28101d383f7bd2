(** Arguments of split and unbind that are refused. *)
From Coq Require Import String List ZArith Bool Lia.
From Coq Require Import ZifyBool.
From Verif Require Import Py Meta MetaSpec MetaProofs MetaEdgeProofs Named NamedSpec NamedProofs NamedSelProofs NamedIndexProofs NamedMetaProofs NamedGetProofs.
Import ListNotations.
Open Scope Z_scope.

Section Edge.
Context {V : Type}.
Implicit Types x : @stensor V.

Lemma norm_dim_none nd d : (forall k, ~ denotes nd d k) -> norm_dim nd d = Err IndexError.
Proof.
  intros H. destruct (norm_dim nd d) as [k|e] eqn:E; [exfalso; apply (H k); now apply norm_dim_denotes|].
  unfold norm_dim in E. destruct (_ || _); congruence.
Qed.

Lemma split_no_dim x sz d : (forall k, ~ denotes (length (shp (tn x))) d k) -> split x sz d = Err IndexError.
Proof. intros H. unfold split, ndim. now rewrite norm_dim_none. Qed.
Lemma unbind_no_dim x d : (forall k, ~ denotes (length (shp (tn x))) d k) -> unbind x d = Err IndexError.
Proof. intros H. unfold unbind, ndim. now rewrite norm_dim_none. Qed.

Lemma zlen_dim_positions n : 0 <= n -> zlen (dim_positions n) = n.
Proof. exact (zlen_positions n). Qed.

Lemma torch_split_bad (t : @tensor V) sz k : 0 <= size t k -> ~ split_fits (size t k) sz -> ~ (sz = SInt 0 /\ size t k = 0) -> torch_split t sz k = Err RuntimeError.
Proof.
  intros Hn H H0. unfold torch_split, tensor_split. pose proof (zlen_dim_positions _ Hn) as HL. unfold zlen in HL. destruct sz as [z|l]; cbn [split_fits] in H.
  - unfold tensor_split_int. destruct (z <? 0) eqn:E; [reflexivity|]. replace (z =? 0) with true by lia.
    assert (z = 0) by lia. subst z. destruct (Nat.eqb_spec (length (dim_positions (size t k))) 0) as [E0|E0]; [|reflexivity]. exfalso. apply H0. split; [reflexivity|lia].
  - unfold tensor_split_list. destruct (forallb _ l && _) eqn:E; [|reflexivity]. exfalso. apply H. rewrite andb_true_iff in E. destruct E as [E1 E2].
    split; [|unfold zlen in E2; lia]. rewrite forallb_forall in E1. apply Forall_forall. intros a Ha. specialize (E1 a Ha). lia.
Qed.

Lemma split_refused x bd ld c rs T d k n sz : stream_ok x bd ld c rs T -> denotes (length (shp (tn x))) d k -> nth_error (shp (tn x)) k = Some n ->
  ~ split_fits n sz -> ~ (sz = SInt 0 /\ n = 0) -> split x sz d = Err RuntimeError.
Proof.
  intros H HD Hk Hf H0. assert (Es : size (tn x) k = n) by (unfold size; now apply nth_error_nth). unfold split, ndim. rewrite (proj2 (norm_dim_denotes _ _ _) HD). cbn [bind].
  unfold name_at. destruct (nth_error (names x) k) as [nm|] eqn:En.
  2:{ exfalso. apply nth_error_None in En. rewrite (so_rank _ _ _ _ _ _ H) in En. assert (X : (k < length (shp (tn x)))%nat) by (apply nth_error_Some; congruence). lia. }
  cbn [bind]. rewrite torch_split_bad; [reflexivity| | |]; rewrite Es; auto.
  pose proof (so_sizes _ _ _ _ _ _ H) as Hn. rewrite Forall_forall in Hn. apply Hn. eapply nth_error_In; eauto.
Qed.

Lemma split_zero x bd ld c rs T d k : stream_ok x bd ld c rs T -> denotes (length (shp (tn x))) d k -> nth_error (shp (tn x)) k = Some 0 ->
  (k = bd -> split x (SInt 0) d = Err ValueError) /\
  (k = ld -> rs <> [] -> split x (SInt 0) d = Err ZeroDivisionError).
Proof.
  intros H HD Hk. assert (Es : size (tn x) k = 0) by (unfold size; now apply nth_error_nth).
  assert (TS : torch_split (tn x) (SInt 0) k = Ok [t_take (tn x) k []]).
  { unfold torch_split. rewrite Es. reflexivity. }
  unfold split, ndim. rewrite (proj2 (norm_dim_denotes _ _ _) HD). cbn [bind]. split.
  - intros ->. unfold name_at. rewrite (so_bname _ _ _ _ _ _ H). cbn [bind]. rewrite TS. cbn [bind]. reflexivity.
  - intros -> Hr. unfold name_at. rewrite (so_lname _ _ _ _ _ _ H). cbn [bind]. rewrite TS. cbn [bind]. rewrite (so_meta _ _ _ _ _ _ H).
    replace (dname_eqb (Some "L"%string) (Some LENGTH)) with true by reflexivity.
    destruct rs as [|r rs]; [congruence|]. reflexivity.
Qed.

Lemma split_no_streams x bd ld c T d sz : stream_ok x bd ld c [] T -> denotes (length (shp (tn x))) d ld -> split_fits T sz ->
  split x sz d = Err RuntimeError.
Proof.
  intros H HD Hf. unfold split, ndim. rewrite (proj2 (norm_dim_denotes _ _ _) HD). cbn [bind]. unfold name_at. rewrite (so_lname _ _ _ _ _ _ H). cbn [bind].
  replace (dname_eqb (Some "L"%string) (Some LENGTH)) with true by reflexivity. rewrite (so_meta _ _ _ _ _ _ H), split_length_none.
  assert (G : exists ts, torch_split (tn x) sz ld = Ok ts); [|destruct G as [ts ->]; reflexivity].
  assert (Es : size (tn x) ld = T) by (unfold size; apply nth_error_nth; exact (so_lsize _ _ _ _ _ _ H)).
  assert (HT : 0 <= T). { pose proof (so_sizes _ _ _ _ _ _ H) as Hn. rewrite Forall_forall in Hn. apply Hn. eapply nth_error_In. exact (so_lsize _ _ _ _ _ _ H). }
  unfold torch_split. rewrite Es. destruct sz as [z|l]; cbn [split_fits tensor_split] in *.
  - unfold tensor_split_int. replace (z <? 0) with false by lia. replace (z =? 0) with false by lia. cbn [bind]. eauto.
  - destruct Hf as [Hl Hs]. unfold tensor_split_list. rewrite zlen_dim_positions by assumption. replace (zsum l =? T) with true by lia.
    replace (forallb (fun k => 0 <=? k) l) with true; [cbn; eauto|]. symmetry. apply forallb_forall. intros a Ha. rewrite Forall_forall in Hl. specialize (Hl a Ha). lia.
Qed.
End Edge.

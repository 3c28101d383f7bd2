(** Proofs about the sets of func_coverage.py after the import. *)

From Coq Require Import String List Bool.
From Verif Require Import Py Dispatch Coverage.
Import ListNotations.
Open Scope string_scope.
Open Scope list_scope.

Lemma mem_iff f l : mem f l = true <-> In f l.
Proof.
  unfold mem. rewrite existsb_exists. split.
  - intros (g & H & E). apply String.eqb_eq in E. now subst.
  - intros H. exists f. split; [exact H|apply String.eqb_refl].
Qed.

Section Coverage.
Context {F : Type}.

Lemma imported_sets flat (ds : list (string * F)) :
  let c := imported flat ds in let c0 := run_func_coverage flat (@nil (string * F)) in
  supported c = supported c0 /\ unsupported c = unsupported c0 /\ non_overrideable c = non_overrideable c0.
Proof.
  unfold imported. cbv zeta. generalize (run_func_coverage flat (@nil (string * F))) as c0.
  induction ds as [|d ds IH]; intros c0; [auto|]. cbn [fold_left]. destruct (IH (implement c0 d)) as (A & B & C). rewrite A, B, C. auto.
Qed.

Lemma put_assoc (f : string) (g : F) l : forall k, 
  find (fun p => String.eqb k (fst p)) (put f g l) = if String.eqb k f then Some (f, g) else find (fun p => String.eqb k (fst p)) l.
Proof.
  intros k. induction l as [|(f', g') l IH]; cbn [put].
  - cbn [find fst]. destruct (String.eqb k f); reflexivity.
  - destruct (String.eqb_spec f f') as [<-|N]; cbn [find fst].
    + destruct (String.eqb k f); reflexivity.
    + rewrite IH. destruct (String.eqb_spec k f') as [->|]; [|reflexivity]. destruct (String.eqb_spec f' f); [congruence|reflexivity].
Qed.

(** What the dict says about a function. *)
Definition entry (c : coverage F) (f : string) : option F := option_map snd (find (fun p => String.eqb f (fst p)) (customized c)).

Lemma entry_implement c d f : entry (implement c d) f = if String.eqb f (fst d) then Some (snd d) else entry c f.
Proof. unfold entry, implement. cbn [customized]. rewrite put_assoc. destruct (String.eqb f (fst d)); reflexivity. Qed.

Lemma entry_imported flat ds f g : entry (imported flat ds) f = Some g <->
  exists l1 l2, ds = l1 ++ (f, g) :: l2 /\ ~ In f (map fst l2).
Proof.
  unfold imported.
  assert (G : forall ds c, entry (fold_left implement ds c) f = Some g <->
    (exists l1 l2, ds = l1 ++ (f, g) :: l2 /\ ~ In f (map fst l2)) \/ (~ In f (map fst ds) /\ entry c f = Some g)).
  { induction ds0 as [|d ds0 IH]; intros c; cbn [fold_left].
    - split; [intros H; right; cbn; auto|]. intros [(l1 & l2 & E & _)|(_ & H)]; [destruct l1; discriminate|exact H].
    - rewrite IH, entry_implement. clear IH. split.
      + intros [(l1 & l2 & -> & H)|(H1 & H2)]; [left; now exists (d :: l1), l2|].
        destruct (String.eqb_spec f (fst d)) as [E|N].
        * left. exists [], ds0. split; [|exact H1]. destruct d. cbn in *. congruence.
        * right. split; [|exact H2]. cbn. intros [H|H]; [congruence|auto].
      + intros [(l1 & l2 & E & H)|(H1 & H2)].
        * destruct l1 as [|e l1]; cbn in E; injection E as -> ->.
          { right. split; [exact H|]. cbn. now rewrite String.eqb_refl. }
          left. eauto.
        * right. cbn in H1. split; [tauto|]. destruct (String.eqb_spec f (fst d)) as [E|N]; [|exact H2]. exfalso. apply H1. left. now symmetry. }
  rewrite G. split; [intros [H|(_ & H)]; [exact H|discriminate]|auto].
Qed.

Lemma registered_missing flat (ds : list (string * F)) f : In f CUSTOMIZED ->
  (In f (supported (imported flat ds)) <-> f = "fake_quantize_per_tensor_affine").
Proof.
  intros H. destruct (imported_sets flat ds) as (-> & _). unfold run_func_coverage. cbn [supported map]. rewrite app_nil_r.
  assert (E : forallb (fun f => Bool.eqb (mem f (VALID ++ DEFAULT_VALID ++ DECOUPLE ++ RECOUPLE ++ INPLACE_RECOUPLE)) (String.eqb f "fake_quantize_per_tensor_affine")) CUSTOMIZED = true)
    by (vm_compute; reflexivity).
  rewrite forallb_forall in E. specialize (E f H). apply eqb_prop in E. rewrite <- mem_iff, E. apply String.eqb_eq.
Qed.

Lemma partition flat (ds : list (string * F)) f : let c := imported flat ds in
  (In f (unsupported c) <-> In f flat /\ ~ In f (supported c)) /\ (In f (non_overrideable c) <-> In f (supported c) /\ ~ In f flat).
Proof.
  cbv zeta. destruct (imported_sets flat ds) as (-> & -> & ->). unfold run_func_coverage. cbn [supported unsupported non_overrideable].
  rewrite !filter_In, !negb_true_iff, <- !not_true_iff_false, !mem_iff. tauto.
Qed.

Lemma handler_supported flat (ds : list (string * F)) f :
  ~ In f (supported (imported flat ds)) -> handler_of f = HDefault \/ handler_of f = HCustom.
Proof.
  destruct (imported_sets flat ds) as (-> & _). unfold run_func_coverage. cbn [supported map]. rewrite app_nil_r, !in_app_iff.
  intros N. unfold handler_of.
  destruct (mem f VALID) eqn:A; [apply mem_iff in A; tauto|].
  destruct (mem f CUSTOMIZED) eqn:B; [auto|].
  destruct (mem f DECOUPLE) eqn:C; [apply mem_iff in C; tauto|].
  destruct (mem f RECOUPLE) eqn:D; [apply mem_iff in D; tauto|].
  destruct (mem f INPLACE_RECOUPLE) eqn:E; [apply mem_iff in E; tauto|]. auto.
Qed.

End Coverage.

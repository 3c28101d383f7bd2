(** Proofs about take with index tensors of other ranks than one and with negative indices (overrides.py 664-697). *)

From Coq Require Import String List ZArith Bool Lia.
From Coq Require Import ZifyBool.
From Verif Require Import Py Meta Named Gather TakeNd.
Import ListNotations.
Open Scope Z_scope.

Section TakeNdProofs.
Context {V : Type}.

Lemma take_nd_never (x : @stensor V) s l y : length s <> 1%nat -> take_nd x s l <> Ok y.
Proof.
  intros H E. unfold take_nd in E. destruct s as [|n [|m s]]; [|cbn in H; lia|].
  all: destruct (torch_take (tn x) l); [|discriminate]; cbn [bind] in E; destruct (np_unravel (shp (tn x)) l) as [subs|]; [|discriminate];
    cbn [bind] in E; destruct (match subs with [] => false | _ => _ end); [discriminate|];
    destruct (take_dim (names x) BATCH (tn x) (map (fun _ => []) subs) (names x)) as [[b nn]|]; [|discriminate]; cbn [bind] in E;
    destruct (take_dim (names x) LENGTH (tn x) (map (fun _ => []) subs) nn) as [[b' nn']|]; [|discriminate]; cbn [bind] in E;
    destruct (join_dim_names nn'); discriminate.
Qed.

Lemma take_nd_type_error (x : @stensor V) s l : length s <> 1%nat -> ~ In 0 s -> shp (tn x) <> [] ->
  Forall (fun n => 0 <= n) s -> Forall (fun i => 0 <= i < zprod (shp (tn x))) l -> take_nd x s l = Err TypeError.
Proof.
  intros H H0 Hx Hs Hl. unfold take_nd.
  assert (E1 : exists t', torch_take (tn x) l = Ok t').
  { unfold torch_take. rewrite (proj2 (forallb_forall _ _)); [eexists; reflexivity|]. intros i Hi.
    rewrite Forall_forall in Hl. specialize (Hl i Hi). lia. }
  destruct E1 as (t' & ->). cbn [bind].
  assert (E2 : exists u r, np_unravel (shp (tn x)) l = Ok (u :: r)).
  { unfold np_unravel. rewrite (proj2 (forallb_forall _ _)).
    - destruct (shp (tn x)) as [|a sh]; [contradiction|]. cbn [length seq map]. eexists; eexists; reflexivity.
    - intros i Hi. rewrite Forall_forall in Hl. specialize (Hl i Hi). lia. }
  destruct E2 as (u & r & ->). cbn [bind]. destruct s as [|n [|m s]]; [reflexivity|cbn in H; lia|].
  assert (En : (0 <? n) = true).
  { inversion Hs; subst. assert (n <> 0) by (intros ->; apply H0; now left). lia. }
  rewrite En. reflexivity.
Qed.

Lemma take_negative (x : @stensor V) l : Forall (fun i => - zprod (shp (tn x)) <= i < zprod (shp (tn x))) l ->
  Exists (fun i => i < 0) l -> take x l = Err ValueError.
Proof.
  intros Hl Hn. unfold take. unfold torch_take. rewrite (proj2 (forallb_forall _ _)).
  2:{ intros i Hi. rewrite Forall_forall in Hl. specialize (Hl i Hi). lia. }
  cbn [bind]. unfold np_unravel. assert (E : forallb (fun i => (0 <=? i) && (i <? zprod (shp (tn x)))) l = false).
  { apply not_true_iff_false. intros G. rewrite forallb_forall in G. apply Exists_exists in Hn as (i & Hi & L).
    specialize (G i Hi). lia. }
  rewrite E. reflexivity.
Qed.
End TakeNdProofs.

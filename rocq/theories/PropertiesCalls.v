(** Properties of the calls that the overrides take (C78). *)

From Coq Require Import String List Bool Arith Lia.
From Verif Require Import Dispatch DispatchProofs CallsSpec CallsProofs.
Import ListNotations.
Open Scope string_scope.
Open Scope list_scope.
Open Scope nat_scope.

(** The functions whose documented calls are not all understood. *)
Definition MISUNDERSTOOD : list string :=
  ["permute"; "Tensor.split"; "unbind"; "frexp"; "take_along_dim"; "Tensor.take_along_dim"; "take"; "Tensor.take"; "Tensor.scatter_reduce_"].

(** C78: every override is documented once, and exactly those not in the list above take every documented call (any number of positional
    arguments, any keywords) and give every argument the documented meaning. *)
Theorem C78_exact : NoDup (map d_name DOCUMENTED) /\ (forall f, In f CUSTOMIZED <-> In f (map d_name DOCUMENTED)) /\
  forall d g, In d DOCUMENTED -> signature_of (d_name d) = Some g ->
    ((forall n kws, allowed d n kws -> understood d g n kws) <-> ~ In (d_name d) MISUNDERSTOOD).
Proof.
  assert (N : NoDup (map d_name DOCUMENTED)).
  { assert (F : forall l, (fix go (l : list string) : bool := match l with [] => true | a :: r => negb (mem a r) && go r end) l = true -> NoDup l).
    { induction l as [|a l IH]; intros H; constructor; apply andb_true_iff in H as [H1 H2].
      - intros Hi. apply mem_In in Hi. rewrite Hi in H1. discriminate.
      - now apply IH. }
    apply F. vm_compute. reflexivity. }
  split; [exact N|]. split.
  { assert (A : forallb (fun f => mem f (map d_name DOCUMENTED)) CUSTOMIZED = true) by (vm_compute; reflexivity).
    assert (B : forallb (fun f => mem f CUSTOMIZED) (map d_name DOCUMENTED) = true) by (vm_compute; reflexivity).
    rewrite forallb_forall in A, B. intros f. split; intros H; apply mem_In; auto. }
  intros d g Hd Hg. split.
  - intros H Hb.
    assert (W : ~ (forall n kws, allowed d n kws -> understood d g n kws)); [|contradiction]. clear H.
    cbv beta delta [DOCUMENTED same] in Hd. cbn [In] in Hd.
    repeat (destruct Hd as [<-|Hd]; [vm_compute in Hg; injection Hg as <-; try (exfalso; cbn [MISUNDERSTOOD d_name In] in Hb; repeat (destruct Hb as [Hb|Hb]; [discriminate|]); exact Hb)|]);
      [..|destruct Hd].
    + apply (refused_call _ _ 0 ["input"; "dims"]); vm_compute; reflexivity.
    + apply (refused_call _ _ 1 ["split_size"]); vm_compute; reflexivity.
    + apply (refused_call _ _ 0 ["input"]); vm_compute; reflexivity.
    + apply (refused_call _ _ 1 ["out"]); vm_compute; reflexivity.
    + apply (refused_call _ _ 2 []); vm_compute; reflexivity.
    + apply (refused_call _ _ 2 []); vm_compute; reflexivity.
    + apply (refused_call _ _ 1 ["index"]); vm_compute; reflexivity.
    + apply (refused_call _ _ 1 ["index"]); vm_compute; reflexivity.
    + apply (swapped_call _ _ 5 [] ("src", "src", false) 3); [vm_compute; reflexivity|cbn; tauto|reflexivity|lia|discriminate].
  - intros Hn n kws HA.
    assert (C : forallb (fun d => mem (d_name d) MISUNDERSTOOD || match signature_of (d_name d) with Some g => check_all d g | None => false end) DOCUMENTED = true)
      by (vm_compute; reflexivity).
    rewrite forallb_forall in C. specialize (C d Hd). rewrite Hg in C. apply orb_true_iff in C as [C|C]; [exfalso; apply Hn; now apply mem_In|].
    destruct (d_star d) eqn:S0; [|exact (check_all_understood d g S0 C n kws HA)].
    assert (S1 : forallb (fun d => negb (d_star d) || String.eqb (d_name d) "Tensor.permute") DOCUMENTED = true) by (vm_compute; reflexivity).
    rewrite forallb_forall in S1. specialize (S1 d Hd). rewrite S0 in S1. cbn [negb orb] in S1. apply String.eqb_eq in S1.
    assert (E : d = mkDoc "Tensor.permute" 1 [("self", "tensor", false)] true []).
    { clear -Hd S1. cbv beta delta [DOCUMENTED same] in Hd. cbn [In] in Hd. repeat (destruct Hd as [<-|Hd]; [first [discriminate S1|reflexivity]|]). destruct Hd. }
    subst d. vm_compute in Hg. injection Hg as <-. apply check_understood; [|exact HA]. destruct HA as (H1 & _). cbn in H1.
    destruct n as [|n]; [lia|]. unfold check, after. cbn [s_star s_pos s_kw d_pos d_kw skipn firstn map fst p_doc snd app]. rewrite !skipn_nil, !firstn_nil.
    vm_compute. reflexivity.
Qed.

(** Some documented calls, and what happens: the argument `src` of x.scatter_reduce_(0, index, src, "sum") is taken for `reduce`. *)
Theorem C78_misunderstood_refuted : forall f, In f MISUNDERSTOOD -> exists d g n kws, In d DOCUMENTED /\ d_name d = f /\ signature_of f = Some g /\
  allowed d n kws /\ ~ understood d g n kws.
Proof.
  assert (R : forall f d g n kws, find (fun d => String.eqb (d_name d) f) DOCUMENTED = Some d -> signature_of f = Some g -> allowedb d n kws = true ->
      accepts g n kws = false -> exists d g n kws, In d DOCUMENTED /\ d_name d = f /\ signature_of f = Some g /\ allowed d n kws /\ ~ understood d g n kws).
  { intros f d g n kws Hf Hg H1 H2. apply find_some in Hf as [Hd Hf]. apply String.eqb_eq in Hf. exists d, g, n, kws. split; [exact Hd|]. split; [exact Hf|].
    split; [exact Hg|]. split; [now apply allowedb_allowed|]. intros [H3 _]. congruence. }
  intros f H. cbn [MISUNDERSTOOD In] in H.
  destruct H as [<-|H]; [eapply (R _ _ _ 0 ["input"; "dims"]); vm_compute; reflexivity|].
  destruct H as [<-|H]; [eapply (R _ _ _ 1 ["split_size"]); vm_compute; reflexivity|].
  destruct H as [<-|H]; [eapply (R _ _ _ 0 ["input"]); vm_compute; reflexivity|].
  destruct H as [<-|H]; [eapply (R _ _ _ 1 ["out"]); vm_compute; reflexivity|].
  destruct H as [<-|H]; [eapply (R _ _ _ 2 []); vm_compute; reflexivity|].
  destruct H as [<-|H]; [eapply (R _ _ _ 2 []); vm_compute; reflexivity|].
  destruct H as [<-|H]; [eapply (R _ _ _ 1 ["index"]); vm_compute; reflexivity|].
  destruct H as [<-|H]; [eapply (R _ _ _ 1 ["index"]); vm_compute; reflexivity|].
  destruct H as [<-|[]].
  destruct (find (fun d => String.eqb (d_name d) "Tensor.scatter_reduce_") DOCUMENTED) as [d|] eqn:Hf; [|vm_compute in Hf; discriminate].
  destruct (signature_of "Tensor.scatter_reduce_") as [g|] eqn:Hg; [|vm_compute in Hg; discriminate].
  exists d, g, 5, []. pose proof Hf as Hf'. apply find_some in Hf' as [Hd Hn]. apply String.eqb_eq in Hn. split; [exact Hd|]. split; [exact Hn|]. split; [reflexivity|].
  vm_compute in Hf, Hg. injection Hf as <-. injection Hg as <-. split; [apply allowedb_allowed; vm_compute; reflexivity|].
  intros [_ H]. specialize (H ("src", "src", false) (At_ 3)). assert (G : given_to ["self"; "dim"; "index"; "src"; "reduce"] 5 [] "src" (At_ 3)).
  { constructor; [reflexivity|lia]. }
  apply H in G; [|cbn; tauto]. inversion G. discriminate.
Qed.

Example C78_example :
  (exists d g, In d DOCUMENTED /\ d_name d = "gather" /\ signature_of "gather" = Some g /\ allowed d 1 ["index"; "dim"; "sparse_grad"] /\
     understood d g 1 ["index"; "dim"; "sparse_grad"] /\ ~ allowed d 4 []) /\
  (exists g, signature_of "Tensor.scatter_reduce_" = Some g /\ accepts g 5 [] = true /\ given_to (map fst (s_pos g)) 5 [] "reduce" (At_ 3)).
Proof.
  split.
  - destruct (find (fun d => String.eqb (d_name d) "gather") DOCUMENTED) as [d|] eqn:Hf; [|vm_compute in Hf; discriminate].
    destruct (signature_of "gather") as [g|] eqn:Hg; [|vm_compute in Hg; discriminate]. exists d, g.
    pose proof Hf as Hf'. apply find_some in Hf' as [Hd Hn]. apply String.eqb_eq in Hn. split; [exact Hd|]. split; [exact Hn|]. split; [reflexivity|].
    vm_compute in Hf, Hg. injection Hf as <-. injection Hg as <-.
    assert (A : allowed (mkDoc "gather" 0 [("input", "input", false); ("dim", "dim", false); ("index", "index", false)] false
                           [("sparse_grad", "sparse_grad", true); ("out", "out", true)]) 1 ["index"; "dim"; "sparse_grad"]) by (apply allowedb_allowed; vm_compute; reflexivity).
    split; [exact A|]. split; [apply check_understood; [vm_compute; reflexivity|exact A]|].
    intros (_ & [H|H] & _); [discriminate|cbn in H; lia].
  - eexists. split; [vm_compute; reflexivity|]. split; [vm_compute; reflexivity|]. constructor; [reflexivity|lia].
Qed.

(* ---- assumptions *)
Print Assumptions C78_exact.
Print Assumptions C78_misunderstood_refuted.

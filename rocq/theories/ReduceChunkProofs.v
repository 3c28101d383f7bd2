(** Proofs: which functions without a rule of their own may be used on chunks of a stream (tensor.py 774-836). *)

From Coq Require Import String List ZArith Bool Lia.
From Verif Require Import Py Meta MetaSpec Named NamedSpec Dispatch Reduce ReduceSpec ReduceProofs.
Import ListNotations.
Open Scope Z_scope.

Section ReduceChunks.
Context {V : Type}.

Lemma one_by_one_app (f : list V -> list V) : one_by_one f -> forall a b, f (a ++ b) = f a ++ f b.
Proof. intros O a b. rewrite (O (a ++ b)), flat_map_app, <- !O. reflexivity. Qed.

Lemma app_one_by_one (f : list V -> list V) : keeps_length f -> (forall a b, f (a ++ b) = f a ++ f b) -> one_by_one f.
Proof.
  intros K H l. induction l as [|v l IH].
  - specialize (K []). destruct (f []); [reflexivity|discriminate].
  - change (v :: l) with ([v] ++ l) at 1. rewrite H, IH. reflexivity.
Qed.

Lemma along_lines name (f : list V -> list V) x bd ld c rs T y ia ic : handler_of name = HDefault -> keeps_length f ->
  stream_ok x bd ld c rs T -> length ia = ld -> call_along name f x (DNam "L") = Ok (DStream y) ->
  line (tn y) T ia ic = f (line (tn x) T ia ic).
Proof.
  intros H K SO L E. rewrite (along_ok _ f _ _ _ _ _ _ (DNam "L") ld H SO (so_lname _ _ _ _ _ _ SO)) in E. injection E as <-. cbn [tn].
  apply along_line; auto. apply nth_error_nth. exact (so_lsize _ _ _ _ _ _ SO).
Qed.

Lemma chunks_exact name (f : list V -> list V) : handler_of name = HDefault -> keeps_length f ->
  ((forall x x1 x2 y y1 y2 bd ld c c1 c2 rs rs1 rs2 T1 T2 ia ic,
      stream_ok x bd ld c rs (T1 + T2) -> stream_ok x1 bd ld c1 rs1 T1 -> stream_ok x2 bd ld c2 rs2 T2 -> length ia = ld ->
      line (tn x) (T1 + T2) ia ic = line (tn x1) T1 ia ic ++ line (tn x2) T2 ia ic ->
      call_along name f x (DNam "L") = Ok (DStream y) -> call_along name f x1 (DNam "L") = Ok (DStream y1) ->
      call_along name f x2 (DNam "L") = Ok (DStream y2) ->
      line (tn y) (T1 + T2) ia ic = line (tn y1) T1 ia ic ++ line (tn y2) T2 ia ic)
   <-> one_by_one f).
Proof.
  intros H K. split.
  - intros A. apply app_one_by_one; [exact K|]. intros a b. destruct (a ++ b) as [|v0 l] eqn:E.
    { apply app_eq_nil in E as [-> ->]. specialize (K []). destruct (f []); [reflexivity|discriminate]. }
    rewrite <- E. clear E.
    assert (L : forall l : list V, 0 <= zlen l <= zlen l) by (unfold zlen; lia).
    pose proof (one_stream_ok (a ++ b) (zlen (a ++ b)) v0 (L _)) as SO.
    pose proof (one_stream_ok a (zlen a) v0 (L _)) as SO1. pose proof (one_stream_ok b (zlen b) v0 (L _)) as SO2.
    assert (Z : zlen (a ++ b) = zlen a + zlen b) by (unfold zlen; rewrite app_length; lia).
    assert (R : forall l n, refers (names (one_stream l n v0)) (DNam "L") 1) by reflexivity.
    pose proof (along_ok _ f _ _ _ _ _ _ _ _ H SO (R _ _)) as E. pose proof (along_ok _ f _ _ _ _ _ _ _ _ H SO1 (R _ _)) as E1.
    pose proof (along_ok _ f _ _ _ _ _ _ _ _ H SO2 (R _ _)) as E2.
    pose proof (along_lines _ f _ _ _ _ _ _ _ [0] [] H K SO eq_refl E) as F. pose proof (along_lines _ f _ _ _ _ _ _ _ [0] [] H K SO1 eq_refl E1) as F1.
    pose proof (along_lines _ f _ _ _ _ _ _ _ [0] [] H K SO2 eq_refl E2) as F2. rewrite one_stream_line in F, F1, F2.
    rewrite <- F, <- F1, <- F2.
    specialize (fun x x1 x2 y y1 y2 => A x x1 x2 y y1 y2 0%nat 1%nat false false false [mkRow "s" true true (zlen (a ++ b)) 0] [mkRow "s" true true (zlen a) 0]
                  [mkRow "s" true true (zlen b) 0] (zlen a) (zlen b) [0] []) as A0.
    rewrite <- Z in A0. eapply A0; [exact SO|exact SO1|exact SO2|reflexivity| |exact E|exact E1|exact E2].
    rewrite !one_stream_line. reflexivity.
  - intros O x x1 x2 y y1 y2 bd ld c c1 c2 rs rs1 rs2 T1 T2 ia ic SO SO1 SO2 L D E E1 E2.
    rewrite (along_lines _ f _ _ _ _ _ _ _ ia ic H K SO L E), (along_lines _ f _ _ _ _ _ _ _ ia ic H K SO1 L E1),
      (along_lines _ f _ _ _ _ _ _ _ ia ic H K SO2 L E2), D. now apply one_by_one_app.
Qed.
End ReduceChunks.

(** Theorems of record about the sets of supported and unsupported functions (func_coverage.py 129-140): C85.

    [imported flat ds]: the variables of func_coverage.py after the import of the library and the registrations [ds]; [flat] are
    the functions torch lets a class override. *)

From Coq Require Import String List Bool.
From Verif Require Import Py Dispatch Coverage CoverageProofs.
Import ListNotations.
Open Scope string_scope.
Open Scope list_scope.

(** Whatever is registered, the set of supported functions stays the union of the five lists, and the other two sets are its
    complement within, and its part outside, the overridable functions. *)
Theorem C85_sets : forall (F : Type) flat (ds : list (string * F)) f, let c := imported flat ds in
  (In f (supported c) <-> In f VALID \/ In f DEFAULT_VALID \/ In f DECOUPLE \/ In f RECOUPLE \/ In f INPLACE_RECOUPLE) /\
  (In f (unsupported c) <-> In f flat /\ ~ In f (supported c)) /\ (In f (non_overrideable c) <-> In f (supported c) /\ ~ In f flat).
Proof.
  intros F flat ds f c. split; [|apply partition]. unfold c. destruct (imported_sets flat ds) as (-> & _).
  unfold run_func_coverage. cbn [supported map]. rewrite app_nil_r, !in_app_iff. reflexivity.
Qed.

Example C85_sets_example :
  let c := imported ["add"; "cat"; "sort"] [("cat", 1); ("split", 2)] in
  unsupported c = ["cat"; "sort"] /\ mem "add" (supported c) = true /\ mem "Tensor.add_" (non_overrideable c) = true /\
  mem "add" (non_overrideable c) = false /\ customized c = [("cat", 1); ("split", 2)].
Proof. vm_compute. auto 10. Qed.

(** Of several overrides of one function the last one registered is called. *)
Theorem C85_last_wins : forall (F : Type) flat (ds : list (string * F)) f g,
  option_map snd (find (fun p => String.eqb f (fst p)) (customized (imported flat ds))) = Some g <->
  exists l1 l2, ds = l1 ++ (f, g) :: l2 /\ ~ In f (map fst l2).
Proof. intros F flat ds f g. apply entry_imported. Qed.

Example C85_last_wins_example :
  customized (imported [] [("cat", 1); ("split", 2); ("cat", 3)]) = [("cat", 3); ("split", 2)].
Proof. vm_compute. reflexivity. Qed.

(** A function outside the set of supported ones gets the default rule or has an override. *)
Theorem C85_unsupported_rules : forall (F : Type) flat (ds : list (string * F)) f,
  ~ In f (supported (imported flat ds)) -> handler_of f = HDefault \/ handler_of f = HCustom.
Proof. intros F flat ds f. apply handler_supported. Qed.

Example C85_unsupported_rules_example : handler_of "sort" = HDefault /\ handler_of "cat" = HCustom.
Proof. vm_compute. auto. Qed.

(** "The full set of functions that are explicitly supported" lacks the functions with overrides: the set is made before any of
    them is registered. All of them but one are missing, and are counted as unsupported if torch lets them be overridden. *)
Theorem C85_overrides_missing_refuted : forall (F : Type) flat (ds : list (string * F)) f, In f CUSTOMIZED ->
  (In f (supported (imported flat ds)) <-> f = "fake_quantize_per_tensor_affine") /\
  (In f flat -> f <> "fake_quantize_per_tensor_affine" -> In f (unsupported (imported flat ds))).
Proof.
  intros F flat ds f H. pose proof (registered_missing flat ds f H) as R. split; [exact R|]. intros H1 H2.
  apply (proj1 (partition flat ds f)). split; [exact H1|]. now rewrite R.
Qed.

Example C85_overrides_missing_refuted_example :
  let c := imported CUSTOMIZED (map (fun f => (f, tt)) CUSTOMIZED) in
  length CUSTOMIZED = 42 /\ length (unsupported c) = 41 /\ map fst (customized c) = CUSTOMIZED.
Proof. vm_compute. auto. Qed.

(* ---- assumptions *)
Print Assumptions C85_sets.
Print Assumptions C85_last_wins.
Print Assumptions C85_unsupported_rules.
Print Assumptions C85_overrides_missing_refuted.

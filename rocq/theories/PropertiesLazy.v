(** Theorems of record about lazily built, cached and shared metadata objects (dreamstream/tensor.py 35-319):
    C11, C12, C13. *)

From Coq Require Import String List ZArith Bool Lia.
From Verif Require Import Py Lazy LazySpec LazyProofs LazyIsoProofs LazyCohProofs.
Import ListNotations.
Open Scope string_scope.
Open Scope list_scope.
Open Scope nat_scope.

(** A batch of three streams of lengths 4, 2 and 3; the first starts here, the last two end here. *)
Definition ex_create : op :=
  Create ["a"; "b"; "c"] (New [1; 0; 0]%Z true) (New [0; 1; 1]%Z true) (New [4; 2; 3]%Z true).

(** A history that mentions only existing objects, with every operation in group [false]. *)
Ltac grouped_run :=
  repeat (eapply grouped_cons;
          [intros p Hp; cbn in Hp; repeat (destruct Hp as [<-|Hp]; [reflexivity|]); try contradiction
          |vm_compute; reflexivity|cbn; reflexivity|]);
  apply grouped_nil.

(* ------------------------------------------------------------------ C11 *)

(** After any history of reads and of assignments through the setters (plain, augmented, through
    starting_lengths and ending_lengths), failing operations included, the summaries of an object agree with
    its current lengths, sos and eos. *)
Theorem C11_caches_never_stale s i sv sn ev en lv ln cs :
  reachable s -> let p := length (st_prox s) in
  Forall (setter_op p) cs ->
  coherent (after s (Create i (New sv sn) (New ev en) (New lv ln) :: cs)) p.
Proof. exact (coherent_history s i sv sn ev en lv ln cs). Qed.

Example C11_ex :
  let cs := [ex_create; Get 0 GMax; Aug 0 FLens Z.add (RNum 5); SetAt 0 FSos (RNum 20); Set_ 0 FSos (New [0; 0; 0]%Z true)] in
  sees (after empty_state cs) 0 GLens = Ok (OInts [20; 7; 8]%Z) /\
  sees (after empty_state cs) 0 GMax = Ok (OInt 20%Z) /\
  sees (after empty_state cs) 0 GMin = Ok (OInt 7%Z) /\
  sees (after empty_state cs) 0 GAnyStarting = Ok (OBool false).
Proof. vm_compute. repeat split; reflexivity. Qed.

(** The restriction to one object matters: slices of metadata share tensors with the original, and writing
    in place through the slice leaves the cache of the original stale. *)
Theorem C11_shared_tensor_refuted :
  ~ (forall cs sides s p, grouped [] empty_state (map (pair false) cs) sides s ->
       nth_error sides p = Some false -> coherent s p).
Proof.
  intro H.
  specialize (H [ex_create; Get 0 GMax; Slice 0 0 2; Aug 1 FLens Z.add (RNum 5)] [false; false]).
  edestruct H as [K _]; [cbn [map]; grouped_run|instantiate (1 := 0); reflexivity|].
  destruct (K [9; 7; 3]%Z) as [_ K']; [vm_compute; reflexivity|].
  destruct K' as (mn & mx & _ & H2 & _ & [_ Hmax]); [discriminate|].
  vm_compute in H2. inversion H2; subst.
  specialize (Hmax 9%Z (or_introl eq_refl)). lia.
Qed.

(* ------------------------------------------------------------------ C12 *)

(** clone() has the values of the original at the time of the call (when it is read before anything else
    happens). *)
Theorem C12_clone_values s p i ss es l :
  reachable s ->
  sees s p GIds = Ok (OIds i) -> sees s p GSos = Ok (OBools ss) -> sees s p GEos = Ok (OBools es) ->
  sees s p GLens = Ok (OInts l) ->
  length ss = length i -> length es = length i -> length l = length i ->
  exists s1, step s (Clone p) = (Ok (ONew (length (st_prox s))), s1) /\
    forall g, plain g = true -> sees s1 (length (st_prox s)) g = sees s p g.
Proof. exact (clone_values s p i ss es l). Qed.

Example C12_values_ex :
  sees (after empty_state [ex_create; Aug 0 FLens Z.add (RNum 5); Clone 0]) 1 GLens = Ok (OInts [9; 7; 8]%Z).
Proof. vm_compute. reflexivity. Qed.

(** Whatever is done through the clone, and through objects derived from it, is invisible in the original and
    in all other objects that existed before, at every point of every history in which the two groups of
    objects are not mixed. *)
Theorem C12_original_isolated s p c s1 cs sides' s2 d q g :
  reachable s -> step s (Clone p) = (Ok (ONew c), s1) ->
  grouped (only_next s) s1 cs sides' s2 ->
  owned sides' true d -> nth_error sides' q = Some false ->
  sees (snd (step s2 d)) q g = sees s2 q g.
Proof. exact (original_isolated s p c s1 cs sides' s2 d q g). Qed.

Example C12_original_ex :
  let s2 := after empty_state [ex_create; Clone 0; Aug 0 FLens Z.add (RNum 5); Slice 1 0 2] in
  sees s2 0 GLens = Ok (OInts [9; 7; 8]%Z) /\
  sees (snd (step s2 (Aug 2 FLens Z.add (RNum 100)))) 0 GLens = Ok (OInts [9; 7; 8]%Z) /\
  sees (snd (step s2 (Aug 2 FLens Z.add (RNum 100)))) 1 GLens = Ok (OInts [109; 107; 8]%Z).
Proof. vm_compute. repeat split; reflexivity. Qed.

(** Once any attribute of the clone has been read, nothing done to the original (or to objects derived from
    it) is visible in the clone or in objects derived from the clone. *)
Theorem C12_clone_isolated_partial s p c s1 g0 cs sides' s2 d q g :
  reachable s -> step s (Clone p) = (Ok (ONew c), s1) ->
  grouped (only_next s) (snd (step s1 (Get c g0))) cs sides' s2 ->
  owned sides' false d -> nth_error sides' q = Some true ->
  sees (snd (step s2 d)) q g = sees s2 q g.
Proof. exact (clone_isolated s p c s1 g0 cs sides' s2 d q g). Qed.

Example C12_clone_ex :
  let s2 := after empty_state [ex_create; Clone 0; Get 1 GLen; Aug 0 FLens Z.add (RNum 5)] in
  sees s2 0 GLens = Ok (OInts [9; 7; 8]%Z) /\ sees s2 1 GLens = Ok (OInts [4; 2; 3]%Z).
Proof. vm_compute. split; reflexivity. Qed.

(** Before its first use the clone is unaffected by everything except in-place updates. *)
Theorem C12_unread_clone_partial s p c s1 cs sides' s2 g :
  reachable s -> step s (Clone p) = (Ok (ONew c), s1) ->
  grouped (only_next s) s1 (map (pair false) cs) sides' s2 -> Forall (fun d => in_place d = false) cs ->
  sees s2 c g = sees s1 c g.
Proof. exact (snapshot_without_in_place s p c s1 cs sides' s2 g). Qed.

Example C12_unread_ex :
  let s2 := after empty_state [ex_create; Clone 0; Set_ 0 FLens (New [7; 7; 7]%Z true); Get 0 GMax] in
  sees s2 0 GLens = Ok (OInts [7; 7; 7]%Z) /\ sees s2 1 GLens = Ok (OInts [4; 2; 3]%Z).
Proof. vm_compute. split; reflexivity. Qed.

(** The unrestricted claim is false: the tensors are copied at the first use of the clone, not at the call,
    so an in-place update of the original in between shows up in the clone. *)
Theorem C12_snapshot_refuted :
  ~ (forall s p c s1 cs sides' s2 g,
       reachable s -> step s (Clone p) = (Ok (ONew c), s1) ->
       grouped (only_next s) s1 (map (pair false) cs) sides' s2 ->
       sees s2 c g = sees s1 c g).
Proof.
  intro H.
  specialize (H (after empty_state [ex_create]) 0 1 (after empty_state [ex_create; Clone 0])
                [Aug 0 FLens Z.add (RNum 5)] [false; true]
                (after empty_state [ex_create; Clone 0; Aug 0 FLens Z.add (RNum 5)]) GLens).
  assert (K : Ok (OInts [9; 7; 8]%Z) = Ok (OInts [4; 2; 3]%Z)); [|discriminate].
  apply H.
  - exists [ex_create], [false]. cbn [map]. grouped_run.
  - vm_compute. reflexivity.
  - cbn [map]. change (only_next (after empty_state [ex_create])) with [false; true]. grouped_run.
Qed.

(** copy.copy() is documented as a deep copy but shares the tensors for ever. *)
Theorem C12_copy_shares_refuted :
  sees (after empty_state [ex_create; Copy 0; Get 1 GLens; Aug 1 FLens Z.add (RNum 5)]) 0 GLens
  <> sees (after empty_state [ex_create; Copy 0; Get 1 GLens]) 0 GLens.
Proof. vm_compute. discriminate. Qed.

(* ------------------------------------------------------------------ C13 (lazy part) *)

(** Inconsistent arguments: the constructor call itself succeeds, the first use raises ValueError, and no
    attribute can be read after any history of operations that do not assign attributes of the object. *)
Theorem C13_inconsistent_unreadable s i sv sn ev en lv ln r s1 cs g :
  step s (Create i (New sv sn) (New ev en) (New lv ln)) = (r, s1) ->
  ~ (length sv = length i /\ length ev = length i /\ length lv = length i) ->
  Forall (fun c => assigns (length (st_prox s)) c = false) cs ->
  r = Ok (ONew (length (st_prox s))) /\
  sees s1 (length (st_prox s)) g = Err ValueError /\
  (sees (after s1 cs) (length (st_prox s)) g = Err ValueError \/
   sees (after s1 cs) (length (st_prox s)) g = Err AttributeError).
Proof. exact (rejected s i sv sn ev en lv ln r s1 cs g). Qed.

Definition ex_bad : op :=
  Create ["a"; "b"; "c"] (New [1; 0; 0]%Z true) (New [0; 1; 1]%Z true) (New [4; 2]%Z true).

Example C13_inconsistent_ex :
  fst (run empty_state [ex_bad; Get 0 GLens; Get 0 GLens]) = [Ok (ONew 0); Err ValueError; Err AttributeError].
Proof. vm_compute. reflexivity. Qed.

(** The constructor does not raise, contrary to the claim; and assigning an attribute makes it readable. *)
Theorem C13_creation_raises_refuted :
  fst (step empty_state ex_bad) = Ok (ONew 0) /\
  sees (after empty_state [ex_bad; Get 0 GLens; Set_ 0 FLens (New [4; 2]%Z true)]) 0 GMax = Ok (OInt 4%Z).
Proof. split; vm_compute; reflexivity. Qed.

(** Consistent arguments are accepted, readable, and the object keeps equally many ids, sos, eos and lengths
    whatever is done short of assigning its attributes. *)
Theorem C13_consistent_sizes s i sv sn ev en lv ln r s1 cs :
  step s (Create i (New sv sn) (New ev en) (New lv ln)) = (r, s1) ->
  length sv = length i -> length ev = length i -> length lv = length i ->
  Forall (fun c => assigns (length (st_prox s)) c = false) cs ->
  let p := length (st_prox s) in
  sees s1 p GIds = Ok (OIds i) /\ sees s1 p GSos = Ok (OBools (map truth sv)) /\
  sees s1 p GEos = Ok (OBools (map truth ev)) /\ sees s1 p GLens = Ok (OInts lv) /\
  exists ss es l, sees (after s1 cs) p GIds = Ok (OIds i) /\ sees (after s1 cs) p GSos = Ok (OBools ss) /\
    sees (after s1 cs) p GEos = Ok (OBools es) /\ sees (after s1 cs) p GLens = Ok (OInts l) /\
    length ss = length i /\ length es = length i /\ length l = length i.
Proof. exact (accepted s i sv sn ev en lv ln r s1 cs). Qed.

Example C13_consistent_ex :
  sees (after empty_state [ex_create; Aug 0 FLens Z.add (RNum 5); AugAt 0 FEos Z.sub (RNum 1)]) 0 GLens
  = Ok (OInts [9; 6; 7]%Z).
Proof. vm_compute. reflexivity. Qed.

(* ---- assumptions *)
Print Assumptions C11_caches_never_stale.
Print Assumptions C11_shared_tensor_refuted.
Print Assumptions C12_clone_values.
Print Assumptions C12_original_isolated.
Print Assumptions C12_clone_isolated_partial.
Print Assumptions C12_unread_clone_partial.
Print Assumptions C12_snapshot_refuted.
Print Assumptions C12_copy_shares_refuted.
Print Assumptions C13_inconsistent_unreadable.
Print Assumptions C13_creation_raises_refuted.
Print Assumptions C13_consistent_sizes.

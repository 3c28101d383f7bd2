(** Theorems of record: several modules on one stream tensor (C67).

    A program is a list of statements; variables are numbered, the inputs first. [run] works on shared metadata objects,
    [vrun] on values: there a statement changes nothing but the variable that it assigns. [see s x] is what the stream
    tensor [x] shows. *)

From Coq Require Import String List ZArith Bool Lia.
From Coq Require Import ZifyBool.
From Verif Require Import Py Meta MetaSpec Pad Conv Stack Share ShareSpec ShareProofs.
Import ListNotations.
Open Scope string_scope.
Open Scope list_scope.
Open Scope Z_scope.

(** A program that uses no variable after it was spoilt computes what it computes with values, with the same exception if
    it fails. *)
Theorem C67_rule : forall (V : Type) (ms : list (conv_cfg V)) sts xs p,
  Forall ok_module ms -> careful ms (xs, sts) (first_tags xs) p ->
  match vrun ms (xs, sts) p with
  | Ok (xs', sts') => exists s', run ms (inputs sts xs) p = (Ok tt, s') /\ bufs s' = sts' /\ length (vars s') = length xs' /\
      forall v xv x, t_ok (tag_of (tags ms (xs, sts) (first_tags xs) p) v) = true ->
        nth_error (vars s') v = Some xv -> nth_error xs' v = Some x -> see s' xv = x
  | Err e => fst (run ms (inputs sts xs) p) = Err e
  end.
Proof. intros V. exact careful_run. Qed.

(** The rule is exact: a call of a module spoils exactly the variables that it names. *)
Theorem C67_rule_exact : forall (V : Type) (ms : list (conv_cfg V)) sts xs p k v xs' sts' s2 u uv x,
  Forall ok_module ms -> careful ms (xs, sts) (first_tags xs) (p ++ [Share.Conv k v]) ->
  vrun ms (xs, sts) p = Ok (xs', sts') -> run ms (inputs sts xs) (p ++ [Share.Conv k v]) = (Ok tt, s2) ->
  t_ok (tag_of (tags ms (xs, sts) (first_tags xs) p) u) = true ->
  nth_error (vars s2) u = Some uv -> nth_error xs' u = Some x ->
  (see s2 uv = x <-> t_ok (tag_of (tags ms (xs, sts) (first_tags xs) (p ++ [Share.Conv k v])) u) = true).
Proof. intros V. exact rule_exact. Qed.

(** Any network is right as long as no module is given a batch in which all streams start. *)
Theorem C67_continuing_partial : forall (V : Type) (ms : list (conv_cfg V)) sts xs p xs' sts',
  Forall (fun c => 1 < kernel_width c) ms -> continuing ms (xs, sts) p -> vrun ms (xs, sts) p = Ok (xs', sts') ->
  exists s', run ms (inputs sts xs) p = (Ok tt, s') /\ bufs s' = sts' /\ map (see s') (vars s') = xs'.
Proof. intros V. exact continuing_run. Qed.

(** A sequential model is always right: it is the function of Stack.v (C27). *)
Theorem C67_chain_partial : forall (V : Type) (Ls : list (layer V)) sts (x : batch V),
  length sts = length Ls -> Forall ok_module (modules Ls) ->
  match stack_call Ls sts x with
  | Ok (y, sts') => exists s' yv, run (modules Ls) (inputs (conv_bufs Ls sts) [x]) (chain Ls 0 0) = (Ok tt, s') /\
      bufs s' = conv_bufs Ls sts' /\ nth_error (vars s') (length Ls) = Some yv /\ see s' yv = y
  | Err e => fst (run (modules Ls) (inputs (conv_bufs Ls sts) [x]) (chain Ls 0 0)) = Err e
  end.
Proof. intros V. exact chain_run. Qed.

(* ---- Cases *)

Definition sum3 (l : list Z) : Z := fold_left Z.add l 0.
Definition k3p1 : conv_cfg Z := mkCfg 3 1 1 1 sum3 0 0.      (* kernel 3, padding 1 *)
Definition k3p0 : conv_cfg Z := mkCfg 3 1 1 0 sum3 0 0.
Definition k1 : conv_cfg Z := mkCfg 1 1 1 0 sum3 0 0.
Definition one (s e : bool) (l : list Z) : batch Z := mkBatch (length l) [l] (mkMeta ["a"] [s] [e] [Z.of_nat (length l)] None).
Definition shown (r : res unit * state Z) : list (list (list Z) * list Z) :=
  map (fun x => (bd (see (snd r) x), lens (bm (see (snd r) x)))) (vars (snd r)).
Definition wanted (r : res (list (batch Z) * list (buffers Z))) : list (list (list Z) * list Z) :=
  match r with Ok (xs, _) => map (fun x => (bd x, lens (bm x))) xs | Err _ => [] end.

(** a = conv(x); b = conv(x) for the first chunk of a stream, with two identical modules: the second result is another one
    than the first, and all three show its lengths. *)
Theorem C67_second_branch_refuted : exists (ms : list (conv_cfg Z)) x p,
  Forall ok_module ms /\
  wanted (vrun ms ([x], [no_buffers; no_buffers]) p) = [([[1; 2; 3; 4; 5]], [5]); ([[3; 6; 9; 12]], [4]); ([[3; 6; 9; 12]], [4])] /\
  fst (run ms (inputs [no_buffers; no_buffers] [x]) p) = Ok tt /\
  shown (run ms (inputs [no_buffers; no_buffers] [x]) p) = [([[1; 2; 3; 4; 5]], [3]); ([[3; 6; 9; 12]], [3]); ([[6; 9; 12]], [3])].
Proof.
  exists [k3p1; k3p1], (one true false [1; 2; 3; 4; 5]), [Share.Conv 0 0; Share.Conv 1 0].
  split; [repeat constructor|]. split; [vm_compute; reflexivity|]. split; vm_compute; reflexivity.
Qed.

(** Not even x.clone() helps: it shares the metadata of x. *)
Theorem C67_copy_refuted : exists (ms : list (conv_cfg Z)) x p,
  Forall ok_module ms /\
  wanted (vrun ms ([x], [no_buffers; no_buffers]) p)
    = [([[1; 2; 3; 4; 5]], [5]); ([[1; 2; 3; 4; 5]], [5]); ([[3; 6; 9; 12]], [4]); ([[3; 6; 9; 12]], [4])] /\
  fst (run ms (inputs [no_buffers; no_buffers] [x]) p) = Ok tt /\
  shown (run ms (inputs [no_buffers; no_buffers] [x]) p)
    = [([[1; 2; 3; 4; 5]], [3]); ([[1; 2; 3; 4; 5]], [3]); ([[3; 6; 9; 12]], [3]); ([[6; 9; 12]], [3])].
Proof.
  exists [k3p1; k3p1], (one true false [1; 2; 3; 4; 5]), [Map (fun z => z) 0%nat; Share.Conv 0 1; Share.Conv 1 0].
  split; [repeat constructor|]. split; [vm_compute; reflexivity|]. split; vm_compute; reflexivity.
Qed.

(** A view taken before the call shows the padded length, unless its metadata was read before. *)
Theorem C67_unread_view_refuted : exists (ms : list (conv_cfg Z)) x p q,
  Forall ok_module ms /\ p = [View 0%nat; Share.Conv 0 0] /\ q = [View 0%nat; Read 1%nat; Share.Conv 0 0] /\
  wanted (vrun ms ([x], [no_buffers]) p) = wanted (vrun ms ([x], [no_buffers]) q) /\
  shown (run ms (inputs [no_buffers] [x]) p) = [([[1; 2; 3; 4; 5]], [4]); ([[1; 2; 3; 4; 5]], [6]); ([[3; 6; 9; 12]], [4])] /\
  shown (run ms (inputs [no_buffers] [x]) q) = [([[1; 2; 3; 4; 5]], [4]); ([[1; 2; 3; 4; 5]], [5]); ([[3; 6; 9; 12]], [4])].
Proof.
  exists [k3p1], (one true false [1; 2; 3; 4; 5]). do 2 eexists. split; [repeat constructor|]. split; [reflexivity|]. split; [reflexivity|].
  split; [vm_compute; reflexivity|]. split; vm_compute; reflexivity.
Qed.

(** A call that fails leaves the padded lengths behind. *)
Theorem C67_failed_call_refuted : exists (ms : list (conv_cfg Z)) x p,
  Forall ok_module ms /\ careful ms ([x], [no_buffers]) (first_tags [x]) p /\
  fst (run ms (inputs [no_buffers] [x]) p) = Err RuntimeError /\
  shown (run ms (inputs [no_buffers] [x]) p) = [([[7; 8]], [4])].
Proof.
  exists [mkCfg 5 1 1 1 sum3 0 0], (one true true [7; 8]), [Share.Conv 0 0].
  split; [repeat constructor|]. split.
  { split; [constructor; [reflexivity|constructor]|]. intros s1 _. exact I. }
  split; vm_compute; reflexivity.
Qed.

(** A module with a kernel of one column and padding: if some but not all streams start and the padded rows fit into the
    tensor, the call turns the rows of the starting streams in the tensor of the caller, whatever the caller does with it
    afterwards. *)
Theorem C67_caller_data_refuted : forall (V : Type) (c : conv_cfg V) st cc rs w rows s',
  kernel_width c <= 1 -> (0 < padn c)%nat -> In true (map rsos rs) -> In false (map rsos rs) ->
  Forall (fun r => 0 <= rlen r /\ rlen r + (if rsos r then Z.of_nat (padn c) else 0) + (if reos r then Z.of_nat (padn c) else 0) <= Z.of_nat w) rs ->
  Forall (fun r => length r = w) rows ->
  run [c] (inputs [st] [mkBatch w rows (of_rows cc rs)]) [Share.Conv 0 0] = (Ok tt, s') ->
  exists xv, nth_error (vars s') 0 = Some xv /\
    forall i old r, nth_error rows i = Some old -> nth_error rs i = Some r ->
      exists new, nth_error (bd (see s' xv)) i = Some new /\
        (if rsos r then exists a b, old = a ++ b /\ length b = padn c /\ new = b ++ a else new = old).
Proof. intros V. exact caller_data. Qed.
Example C67_caller_data_example :
  let x := mkBatch 4 [[1; 2; 0; 0]; [5; 6; 7; 0]] (of_rows false [mkRow "a" true false 2 0; mkRow "b" false true 3 0]) in
  let r := run [mkCfg 1 1 1 1 sum3 0 0] (inputs [no_buffers] [x]) [Share.Conv 0 0] in
  fst r = Ok tt /\ shown r = [([[0; 1; 2; 0]; [5; 6; 7; 0]], [3; 4]); ([[0; 1; 2; 0]; [5; 6; 7; 0]], [3; 4])].
Proof. cbv zeta. split; vm_compute; reflexivity. Qed.

(** Branches that are right: full sequences and modules that keep the length, and kernels of one column. *)
Example C67_same_length_example :
  let x := one true true [1; 2; 3; 4; 5] in
  let ms := [k3p1; k3p1; k1] in
  let p := [Share.Conv 0 0; Share.Conv 1 0; Share.Conv 2 0; Zip Z.add 1%nat 2%nat; Zip Z.add 4%nat 3%nat] in
  Forall ok_module ms /\ careful ms ([x], [no_buffers; no_buffers; no_buffers]) (first_tags [x]) p /\
  shown (run ms (inputs [no_buffers; no_buffers; no_buffers] [x]) p) = wanted (vrun ms ([x], [no_buffers; no_buffers; no_buffers]) p) /\
  length (shown (run ms (inputs [no_buffers; no_buffers; no_buffers] [x]) p)) = 6%nat.
Proof.
  cbn zeta. split.
  { constructor; [left; reflexivity|]. constructor; [left; reflexivity|]. constructor; [right; reflexivity|constructor]. }
  split.
  { split; [repeat constructor|]. vm_compute vstep. intros s1 [= <-].
    split; [repeat constructor|]. vm_compute vstep. intros s2 [= <-].
    split; [repeat constructor|]. vm_compute vstep. intros s3 [= <-].
    split; [repeat constructor|]. vm_compute vstep. intros s4 [= <-].
    split; [repeat constructor|]. vm_compute vstep. intros s5 [= <-]. exact I. }
  split; vm_compute; reflexivity.
Qed.

(** Two branches on a later chunk. *)
Example C67_continuing_example :
  let x := one false false [4; 5; 6] in
  let b := fun i => if String.eqb i "a" then Some [2; 3] else None in
  let p := [Share.Conv 0 0; Map (fun z => 2 * z) 0%nat; Share.Conv 1 2; Zip Z.add 1%nat 3%nat] in
  continuing [k3p1; k3p0] ([x], [b; b]) p /\
  shown (run [k3p1; k3p0] (inputs [b; b] [x]) p)
    = [([[4; 5; 6]], [3]); ([[9; 12; 15]], [3]); ([[8; 10; 12]], [3]); ([[13; 21; 30]], [3]); ([[22; 33; 45]], [3])].
Proof.
  cbn zeta. split; [|vm_compute; reflexivity].
  split; [intros k v x [= <- <-] [= <-]; reflexivity|]. intros [xs1 sts1] E1. vm_compute in E1. injection E1 as <- <-.
  split; [intros k v x [=]|]. intros [xs2 sts2] E2. vm_compute in E2. injection E2 as <- <-.
  split; [intros k v x [= <- <-] [= <-]; reflexivity|]. intros [xs3 sts3] E3. vm_compute in E3. injection E3 as <- <-.
  split; [intros k v x [=]|]. intros s _. exact I.
Qed.

(** A chain on the first chunk. *)
Example C67_chain_example :
  let Ls := [LConv k3p1; LMap (fun z => 10 * z); LConv k3p0] in
  shown (run (modules Ls) (inputs (conv_bufs Ls [no_buffers; no_buffers; no_buffers]) [one true false [1; 2; 3; 4; 5]]) (chain Ls 0 0))
    = [([[1; 2; 3; 4; 5]], [2]); ([[3; 6; 9; 12]], [2]); ([[30; 60; 90; 120]], [2]); ([[180; 270]], [2])].
Proof. vm_compute. reflexivity. Qed.

(* ---- assumptions *)
Print Assumptions C67_rule.
Print Assumptions C67_rule_exact.
Print Assumptions C67_continuing_partial.
Print Assumptions C67_chain_partial.
Print Assumptions C67_second_branch_refuted.
Print Assumptions C67_copy_refuted.
Print Assumptions C67_unread_view_refuted.
Print Assumptions C67_failed_call_refuted.
Print Assumptions C67_caller_data_refuted.

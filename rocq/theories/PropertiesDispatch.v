(** Theorems of record about StreamTensor.__torch_function__ (dreamstream/tensor.py 774-836, 1035-1056): C24, C25.

    [torch_function custom f impl args kw]: what `f( *args, **kw)` gives when one of the arguments is a StreamTensor;
    [impl] is torch's own implementation of f (any function of the raw arguments), [custom] the registered overrides. *)

From Coq Require Import String List ZArith Bool Lia.
From Verif Require Import Py Meta MetaSpec Named NamedSpec Dispatch DispatchProofs PropertiesNamed.
Import ListNotations.
Open Scope string_scope.
Open Scope list_scope.
Open Scope Z_scope.

(** The result of a call, for the examples. *)
Fixpoint seen (o : @out Z) : list (list Z * list Z * list dname * option meta) :=
  match o with
  | DStream x => [(shp (tn x), map (at_ (tn x)) (all_ix (shp (tn x))), names x, Some (smeta x))]
  | DBare t n | DPlain t n => [(shp t, map (at_ t) (all_ix (shp t)), n, None)]
  | DVal k => [([], [k], [], None)]
  | DTuple l => flat_map seen l
  end.
Definition look (o : res (@out Z)) := match o with Ok o => Ok (seen o) | Err e => Err e end.

(** torch.add(input, other, alpha=1) for tensors of one shape or a number; the in-place variant; torch.stack; a
    function with two results. *)
Definition t_alpha (kw : list (string * @rarg Z)) : Z := match kw with [("alpha", RO k)] => k | _ => 1 end.
Definition t_add (args : list (@rarg Z)) (kw : list (string * @rarg Z)) : res (@rout Z) :=
  match args with
  | [RT a n; RT b _] => Ok (RTen (mkTn (shp a) (fun i => at_ a i + t_alpha kw * at_ b i)) n)
  | [RT a n; RO k] => Ok (RTen (mkTn (shp a) (fun i => at_ a i + t_alpha kw * k)) n)
  | _ => Err TypeError
  end.
Definition t_add_ (args : list (@rarg Z)) (kw : list (string * @rarg Z)) : res (@rout Z) :=
  do r <- t_add args kw; match r with RTen t n => Ok (RSelf t n) | _ => Ok r end.
Definition t_stack (args : list (@rarg Z)) (kw : list (string * @rarg Z)) : res (@rout Z) :=
  match args with
  | [RL (RT a n :: r)] =>
      Ok (RTen (mkTn (1 + zlen r :: shp a) (fun i => match nth_error (RT a n :: r) (Z.to_nat (hd 0 i)) with
                                                      | Some (RT b _) => at_ b (tl i) | _ => 0 end)) (None :: n))
  | _ => Err TypeError
  end.
Definition t_frexp (args : list (@rarg Z)) (kw : list (string * @rarg Z)) : res (@rout Z) :=
  match args with
  | [RT a n] => Ok (RTuple [RTen (mkTn (shp a) (fun i => at_ a i / 10)) n; RTen (mkTn (shp a) (fun i => at_ a i mod 10)) n])
  | _ => Err TypeError
  end.
Definition no_custom (f : string) (args : list (@arg Z)) (kw : @kwargs Z) : res (@out Z) := Err Undefined.

(** Two streams of two steps; [ex_d1] and [ex_d2] differ in data only, [ex_d3] continues them, [ex_ch] has chunk indices. *)
Definition d_meta (s : bool) (c : option (list Z)) : meta := mkMeta ["a"; "b"] [s; s] [false; false] [2; 2] c.
Definition d_ten (k : Z) : @tensor Z := mkTn [2; 2] (fun i => k + digits i).
Definition d_names : list dname := [Some "B"; Some "L"].
Definition ex_d1 : @stensor Z := mkSt (d_ten 0) d_names (d_meta true None).
Definition ex_d2 : @stensor Z := mkSt (d_ten 100) d_names (d_meta true None).
Definition ex_d3 : @stensor Z := mkSt (d_ten 100) d_names (d_meta false None).
Definition ex_dt : @stensor Z := mkSt (d_ten 100) [Some "L"; Some "B"] (d_meta true None).

(* ------------------------------------------------------------------ C24 *)

(** Which rule the functions of the registered sets get: every function of a set gets the rule of the set, except three of
    the default set that are recoupled and one of the decoupling set that is customised; a function that is not
    registered at all is handled by default. *)
Theorem C24_rules : forall f,
  (In f RECOUPLE -> handler_of f = HRecouple) /\
  (In f DEFAULT_VALID -> handler_of f = HDefault \/ handler_of f = HRecouple /\ In f ["transpose"; "sigmoid"; "Tensor.sigmoid"]) /\
  (In f VALID -> handler_of f = HValid) /\ (In f CUSTOMIZED -> handler_of f = HCustom) /\
  (In f DECOUPLE -> f <> "fake_quantize_per_tensor_affine" -> handler_of f = HDecouple) /\
  (In f INPLACE_RECOUPLE -> handler_of f = HInplace) /\
  (~ In f (VALID ++ CUSTOMIZED ++ DECOUPLE ++ RECOUPLE ++ INPLACE_RECOUPLE) -> handler_of f = HDefault).
Proof.
  intros f. destruct (class_of_listed f) as (H1 & H2 & H3 & H4).
  split; [apply class_of_recouple|split; [apply class_of_default|]]. split; [exact H1|]. split; [exact H2|]. split; [exact H3|].
  split; [exact H4|apply class_of_unlisted].
Qed.
Example C24_rules_ex : handler_of "fake_quantize_per_tensor_affine" = HCustom /\ In "fake_quantize_per_tensor_affine" DECOUPLE /\
  handler_of "exp" = HDefault /\ handler_of "sigmoid" = HRecouple /\ handler_of "no.such" = HDefault /\
  handler_of "Tensor.add_" = HValid /\ handler_of "Tensor.heaviside_" = HInplace /\ handler_of "cat" = HCustom.
Proof. split; [|split; [apply mem_In|split; [|split; [|split; [|split; [|split]]]]]]; vm_compute; reflexivity. Qed.

(** Streams without chunk indices: a StreamTensor that comes out of the default or recoupling rule has the metadata of
    every StreamTensor among the positional and keyword arguments, and the recoupling rule also keeps the names they
    have in common. *)
Theorem C24_common_metadata_partial : forall (V : Type) custom f (impl : @raw V) args kw y,
  handler_of f = HDefault \/ handler_of f = HRecouple ->
  (forall x, In (AStream x) (args ++ map snd kw) -> chs (smeta x) = None) ->
  torch_function custom f impl args kw = Ok (DStream y) ->
  forall x, In (AStream x) (args ++ map snd kw) ->
    smeta y = smeta x /\ (handler_of f = HRecouple -> names x <> [] -> names y = names x).
Proof.
  intros V custom f impl args kw y HH HC E x Hx. split; [eapply dispatch_result; eauto|].
  intros HR Hn. unfold torch_function in E. rewrite HR in E.
  destruct (recouple_result impl args kw _ HC E) as (z & Ez & HZ). injection Ez as <-. now apply HZ.
Qed.
(** … and if any two of them differ, in whatever position, the call raises whatever torch would return; the recoupling
    rule also raises when names differ. *)
Theorem C24_refuses_partial : forall (V : Type) custom f (impl : @raw V) args kw x x',
  handler_of f = HDefault \/ handler_of f = HRecouple ->
  (forall x, In (AStream x) (args ++ map snd kw) -> chs (smeta x) = None) ->
  In (AStream x) (args ++ map snd kw) -> In (AStream x') (args ++ map snd kw) ->
  smeta x <> smeta x' \/ handler_of f = HRecouple /\ names x <> names x' ->
  exists e, torch_function custom f impl args kw = Err e.
Proof.
  intros V custom f impl args kw x x' HH HC Hx Hx' [D|[HR D]].
  - exact (dispatch_refuses custom f impl args kw x x' HH HC Hx Hx' D).
  - exact (dispatch_names_refused custom f impl args kw x x' HR HC Hx Hx' D).
Qed.
(** Equal streams are accepted: the result holds torch's data and the common metadata; names are torch's own for the
    default rule, and the common ones for the recoupling rule. *)
Theorem C24_accepts_partial : forall (V : Type) custom f (impl : @raw V) args kw x t n,
  (forall x, In (AStream x) (args ++ map snd kw) -> chs (smeta x) = None) -> In (AStream x) (args ++ map snd kw) ->
  (forall x', In (AStream x') (args ++ map snd kw) -> smeta x' = smeta x) ->
  (handler_of f = HDefault -> impl (map raw_of args) (on_values raw_of kw) = Ok (RTen t n) ->
     torch_function custom f impl args kw = Ok (DStream (mkSt t n (smeta x)))) /\
  (handler_of f = HRecouple -> (forall x', In (AStream x') (args ++ map snd kw) -> names x' = names x) ->
     lists_hold_no_stream (args ++ map snd kw) -> length (names x) = length (shp t) -> names_distinct (names x) ->
     impl (map decoupled args) (on_values decoupled kw) = Ok (RTen t n) ->
     torch_function custom f impl args kw = Ok (DStream (mkSt t (names x) (smeta x)))).
Proof.
  intros V custom f impl args kw x t n HC Hx HS. unfold torch_function. split; intros HH; rewrite HH.
  - intros E. destruct (default_accepts impl args kw x HC Hx HS) as (A & _). apply A. exact E.
  - intros HN HL Hl HD E. apply no_nested in HL. eapply recouple_accepts; eauto.
Qed.
Example C24_ex :
  look (torch_function no_custom "add" t_add [AStream ex_d1; AStream ex_d2] []) =
    Ok [([2; 2], [100; 102; 120; 122], d_names, Some (d_meta true None))] /\
  look (torch_function no_custom "add" t_add [AStream ex_d1; AStream ex_d3] []) = Err AttributeError /\
  look (torch_function no_custom "logaddexp" t_add [AStream ex_d1; AStream ex_d2] []) =
    Ok [([2; 2], [100; 102; 120; 122], d_names, Some (d_meta true None))] /\
  look (torch_function no_custom "heaviside" t_add [AStream ex_d1; AStream ex_d2] []) =
    Ok [([2; 2], [100; 102; 120; 122], d_names, Some (d_meta true None))] /\
  look (torch_function no_custom "heaviside" t_add [AStream ex_d1; AStream ex_dt] []) = Err RuntimeError /\
  map handler_of ["add"; "heaviside"] = [HDefault; HRecouple].
Proof. split; [|split; [|split; [|split; [|split]]]]; vm_compute; reflexivity. Qed.

(** With chunk indices the comparison is wrong (StreamMetadata.__eq__ compares chunk indices with lengths): chunks of
    the same chunk number are refused although their metadata is equal, and a stream whose chunk indices happen to
    equal the other's lengths is accepted although they differ; the result has the metadata of only one. *)
Theorem C24_chunk_indices_refuted :
  (let x := mkSt (d_ten 0) d_names (d_meta true (Some [0; 0])) in
   torch_function no_custom "add" t_add [AStream x; AStream x] [] = Err RuntimeError) /\
  (let x := mkSt (d_ten 0) d_names (d_meta true (Some [7; 8])) in
   let y := mkSt (d_ten 100) d_names (d_meta true (Some [2; 2])) in
   look (torch_function no_custom "add" t_add [AStream x; AStream y] []) =
     Ok [([2; 2], [100; 102; 120; 122], d_names, Some (d_meta true (Some [7; 8])))]).
Proof. split; vm_compute; reflexivity. Qed.
(** In-place functions do not compare at all: for every function of the in-place recoupling rule the result keeps the
    metadata of the first stream, whatever the others are … *)
Theorem C24_inplace_refuted :
  (forall (V : Type) custom f (impl : @raw V) x args kw o, handler_of f = HInplace ->
     torch_function custom f impl (AStream x :: args) kw = Ok o -> exists y, o = DStream y /\ smeta y = smeta x /\ names y = names x) /\
  look (torch_function no_custom "Tensor.heaviside_" t_add_ [AStream ex_d1; AStream ex_d3] []) =
    Ok [([2; 2], [100; 102; 120; 122], d_names, Some (d_meta true None))] /\
  look (torch_function no_custom "Tensor.add_" t_add_ [AStream ex_d1; AStream ex_d3] []) =
    Ok [([2; 2], [100; 102; 120; 122], d_names, Some (d_meta true None))].
Proof.
  split; [|split; vm_compute; reflexivity].
  intros V custom f impl x args kw o H E. eapply inplace_keeps_first; eauto.
Qed.
(** … streams inside a list argument are not seen: by default the call fails even for equal streams … *)
Theorem C24_list_argument_refuted : forall (V : Type) custom f (impl : @raw V) l kw t n, handler_of f = HDefault ->
  (forall a, In a (map snd kw) -> match a with AStream _ => False | _ => True end) ->
  impl [RL (map raw_of l)] (on_values raw_of kw) = Ok (RTen t n) ->
  torch_function custom f impl [AList l] kw = Err IndexError.
Proof. intros V custom f impl l kw t n. apply nested_fails. Qed.
Example C24_list_argument_ex :
  handler_of "stack" = HDefault /\
  t_stack [RL (map raw_of [AStream ex_d1; AStream ex_d2])] [] <> Err TypeError /\
  torch_function no_custom "stack" t_stack [AList [AStream ex_d1; AStream ex_d2]] [] = Err IndexError.
Proof. split; [vm_compute; reflexivity|split; [discriminate|vm_compute; reflexivity]]. Qed.
(** … and tensors inside a tuple result are StreamTensors without metadata. *)
Theorem C24_tuple_result_refuted :
  handler_of "sort" = HDefault /\
  look (torch_function no_custom "sort" t_frexp [AStream ex_d1] []) =
    Ok [([2; 2], [0; 0; 1; 1], d_names, None); ([2; 2], [0; 1; 0; 1], d_names, None)].
Proof. split; vm_compute; reflexivity. Qed.

(** torch.adjoint is in the recoupling set although it swaps the last two dimensions: the names are put back in the old
    order, so B and L change places under the data. *)
Definition t_adjoint (args : list (@rarg Z)) (kw : list (string * @rarg Z)) : res (@rout Z) :=
  match args with
  | [RT a n] => Ok (RTen (mkTn (rev (shp a)) (fun i => at_ a (rev i))) (rev n))
  | _ => Err TypeError
  end.
Theorem C21_adjoint_refuted :
  handler_of "adjoint" = HRecouple /\
  look (torch_function no_custom "adjoint" t_adjoint [AStream (mkSt (mkTn [2; 3] digits) d_names (d_meta true None))] []) =
    Ok [([3; 2], [0; 10; 1; 11; 2; 12], [Some "B"; Some "L"], Some (d_meta true None))].
Proof. split; vm_compute; reflexivity. Qed.

(* ------------------------------------------------------------------ C25 *)

(** Functions of the default rule reach torch with all positional and keyword arguments: an error torch raises for them is
    the error of the call, and nothing but torch's answer to exactly these arguments matters. *)
Theorem C25_default : forall (V : Type) custom f (impl impl' : @raw V) args kw, handler_of f = HDefault ->
  (forall e, impl (map raw_of args) (on_values raw_of kw) = Err e -> torch_function custom f impl args kw = Err e) /\
  (impl (map raw_of args) (on_values raw_of kw) = impl' (map raw_of args) (on_values raw_of kw) ->
   torch_function custom f impl args kw = torch_function custom f impl' args kw).
Proof.
  intros V custom f impl impl' args kw H. unfold torch_function. rewrite H. split; intros.
  - now apply default_calls.
  - now apply default_only.
Qed.
(** The same for the decoupling and the two recoupling rules, which hand over the streams as tensors without names; the
    arguments must contain no stream inside a list. *)
Theorem C25_decoupled_partial : forall (V : Type) custom f (impl impl' : @raw V) args kw,
  handler_of f = HDecouple \/ handler_of f = HRecouple \/ handler_of f = HInplace ->
  (handler_of f <> HRecouple -> args <> [] -> lists_hold_no_stream (args ++ map snd kw) ->
   forall e, impl (map decoupled args) (on_values decoupled kw) = Err e -> torch_function custom f impl args kw = Err e) /\
  (impl (map decoupled args) (on_values decoupled kw) = impl' (map decoupled args) (on_values decoupled kw) ->
   torch_function custom f impl args kw = torch_function custom f impl' args kw).
Proof.
  intros V custom f impl impl' args kw H. unfold torch_function. split.
  - intros HR Ha HN e E. apply no_nested in HN. destruct H as [H|[H|H]]; rewrite H; [|contradiction|].
    + unfold decouple_call, top. rewrite HN, E. reflexivity.
    + unfold inplace_recouple. destruct args as [|a l]; [contradiction|]. unfold decouple_call, top. rewrite HN, E. reflexivity.
  - intros E. destruct H as [H|[H|H]]; rewrite H.
    + unfold decouple_call. now rewrite E.
    + now apply recouple_only.
    + unfold inplace_recouple. destruct args; auto. unfold decouple_call. now rewrite E.
Qed.
Example C25_ex :
  look (torch_function no_custom "add" t_add [AStream ex_d1; AOther 5] [("alpha", AOther 3)]) =
    Ok [([2; 2], [15; 16; 25; 26], d_names, Some (d_meta true None))] /\
  look (torch_function no_custom "heaviside" t_add [AStream ex_d1; AStream ex_d2] [("alpha", AOther 2)]) =
    Ok [([2; 2], [200; 203; 230; 233], d_names, Some (d_meta true None))].
Proof. split; vm_compute; reflexivity. Qed.

(** Functions registered as valid lose every keyword argument: the answer is the same as without them. *)
Theorem C25_valid_keywords_refuted :
  (forall (V : Type) custom f (impl : @raw V) args kw, handler_of f = HValid ->
     torch_function custom f impl args kw = torch_function custom f impl args []) /\
  look (torch_function no_custom "Tensor.add_" t_add_ [AStream ex_d1; AOther 5] [("alpha", AOther 3)]) =
    Ok [([2; 2], [5; 6; 15; 16], d_names, Some (d_meta true None))].
Proof.
  split; [|vm_compute; reflexivity]. intros V custom f impl args kw H. now apply valid_ignores_keywords.
Qed.
(** … so positional arguments reach torch, keywords do not. *)
Theorem C25_valid_positional_partial : forall (V : Type) custom f (impl : @raw V) args e, handler_of f = HValid ->
  impl (map raw_of args) [] = Err e -> torch_function custom f impl args [] = Err e.
Proof. intros V custom f impl args e H E. unfold torch_function, super_call, on_values. rewrite H. cbn [map]. rewrite E. reflexivity. Qed.

(** Overrides are called with all arguments whenever their own signature binds them … *)
Theorem C25_custom_partial : forall (V : Type) custom f (impl : @raw V) args kw g, handler_of f = HCustom ->
  signature_of f = Some g ->
  torch_function custom f impl args kw = if accepts g (length args) (map fst kw) then custom f args kw else Err TypeError.
Proof. intros V custom f impl args kw g H E. unfold torch_function. rewrite H, E. reflexivity. Qed.
(** … and every registered override has one; but some calls that torch documents are refused whatever the arguments
    are: torch.permute(input=, dims=), x.permute(dims=), torch.unbind(input=), torch.take(x, index=), x.take(index=) and
    torch.take_along_dim(x, i). *)
Theorem C25_custom_refuted :
  (forall f, handler_of f = HCustom -> In f CUSTOMIZED) /\
  (forall f, In f CUSTOMIZED -> signature_of f <> None) /\
  (forall (V : Type) custom f (impl : @raw V) args kw,
     In (f, length args, map fst kw)
       [("permute", 0%nat, ["input"; "dims"]); ("Tensor.permute", 1%nat, ["dims"]); ("unbind", 0%nat, ["input"]);
        ("take", 1%nat, ["index"]); ("Tensor.take", 1%nat, ["index"]); ("take_along_dim", 2%nat, [])] ->
     torch_function custom f impl args kw = Err TypeError).
Proof.
  split; [|split].
  - intros f. unfold handler_of. destruct (mem f VALID); [discriminate|]. destruct (mem f CUSTOMIZED) eqn:E.
    + intros _. now apply mem_In.
    + destruct (mem f DECOUPLE), (mem f RECOUPLE), (mem f INPLACE_RECOUPLE); discriminate.
  - intros f H.
    assert (G : forallb (fun g => match signature_of g with Some _ => true | None => false end) CUSTOMIZED = true) by (vm_compute; reflexivity).
    rewrite forallb_forall in G. specialize (G f H). destruct (signature_of f); congruence.
  - intros V custom f impl args kw H.
    assert (G : forall q, In q [("permute", 0%nat, ["input"; "dims"]); ("Tensor.permute", 1%nat, ["dims"]); ("unbind", 0%nat, ["input"]);
        ("take", 1%nat, ["index"]); ("Tensor.take", 1%nat, ["index"]); ("take_along_dim", 2%nat, [])] ->
        handler_of (fst (fst q)) = HCustom /\
        exists g, signature_of (fst (fst q)) = Some g /\ accepts g (snd (fst q)) (snd q) = false).
    { intros q Hq. repeat destruct Hq as [<-|Hq]; try destruct Hq;
        (split; [vm_compute; reflexivity|eexists; split; vm_compute; reflexivity]). }
    destruct (G _ H) as (H1 & g & H2 & H3). cbn [fst snd] in *. unfold torch_function. rewrite H1, H2, H3. reflexivity.
Qed.
Example C25_custom_ex :
  (exists g, signature_of "unsqueeze" = Some g /\ accepts g 1 ["dim"] = true /\ accepts g 0 ["input"; "dim"] = true /\
             accepts g 1 ["axis"] = false /\ accepts g 1 [] = false /\ accepts g 2 ["dim"] = false).
Proof. eexists. split; [vm_compute; reflexivity|]. split; [|split; [|split; [|split]]]; vm_compute; reflexivity. Qed.

(* ---- assumptions *)
Print Assumptions C24_rules.
Print Assumptions C24_common_metadata_partial.
Print Assumptions C24_refuses_partial.
Print Assumptions C24_accepts_partial.
Print Assumptions C24_chunk_indices_refuted.
Print Assumptions C24_inplace_refuted.
Print Assumptions C24_list_argument_refuted.
Print Assumptions C24_tuple_result_refuted.
Print Assumptions C21_adjoint_refuted.
Print Assumptions C25_default.
Print Assumptions C25_decoupled_partial.
Print Assumptions C25_valid_keywords_refuted.
Print Assumptions C25_valid_positional_partial.
Print Assumptions C25_custom_partial.
Print Assumptions C25_custom_refuted.

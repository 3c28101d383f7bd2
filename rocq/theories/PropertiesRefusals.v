(** Theorems of record: exact effects and refusals that sharpen C23, C25, C33, C58, C59 and C83. *)

From Coq Require Import String List ZArith Bool Lia.
From Coq Require Import ZifyBool.
From Verif Require Import Py Meta MetaSpec Pad Conv ConvSpec ConvTensor ConvTensorSpec ConvRefusalProofs.
From Verif Require Import Named NamedSpec Gather FullIndex FullIndexSpec Dispatch DispatchProofs RefusalProofs.
Import ListNotations.
Open Scope string_scope.
Open Scope list_scope.
Open Scope Z_scope.

(* ------------------------------------------------------------------ C23 *)

(** The names of a concatenation are exactly the names of the operands taken together; so there is no result if two operands
    have different names for a dimension. *)
Theorem C23_names : forall (V : Type) (o0 o1 : @operand V) os dim y, cat (o0 :: o1 :: os) dim = Ok (OStream y) -> forall d n,
  (exists o, In o (o0 :: o1 :: os) /\ nth_error (op_names o) d = Some (Some n)) <-> nth_error (names y) d = Some (Some n).
Proof. intros V o0 o1 os dim y. apply cat_names. Qed.

Definition named (s : bool) (a b : dname) : @operand Z := OStream (mkSt (mkTn [1; 2; 2] (fun p => nth 2 p 0)) [Some "B"; a; b] (of_rows false [mkRow "s" s false 2 0])).
Example C23_names_example :
  match cat [named true None (Some "L"); OPlain (mkTn [1; 2; 1] (fun _ => 7)); named false (Some "F") (Some "L")] (-1) with
  | Ok (OStream y) => names y = [Some "B"; Some "F"; Some "L"] /\ shp (tn y) = [1; 2; 5]
  | _ => False
  end /\ cat [named true (Some "F") (Some "L"); named false (Some "G") (Some "L")] (-1) = Err RuntimeError.
Proof. vm_compute. auto. Qed.

(* ------------------------------------------------------------------ C25 *)

(** Functions of the decoupling, recoupling and in-place sets never work with a list (or tuple) that holds a StreamTensor,
    however deep: only the arguments themselves are decoupled. *)
Theorem C25_streams_in_lists_refuted : forall (V : Type) custom f (impl : @raw V) args kw items (x : @stensor V),
  In (AList items) (args ++ map snd kw) -> inside x (AList items) ->
  (handler_of f = HDecouple \/ handler_of f = HInplace /\ args <> [] -> torch_function custom f impl args kw = Err RuntimeError) /\
  (handler_of f = HRecouple -> exists e, torch_function custom f impl args kw = Err e).
Proof. intros V custom f impl args kw items x. apply nested_refused. Qed.

Definition plus_s : @stensor Z := mkSt (mkTn [1; 2] (fun p => nth 1 p 0)) [Some "B"; Some "L"] (of_rows false [mkRow "s" true false 2 0]).
Definition first_tensor (args : list (@rarg Z)) (kw : list (string * @rarg Z)) : res (@rout Z) :=
  match args with RL (RT t n :: _) :: _ => Ok (RTen t n) | RT t n :: _ => Ok (RTen t n) | _ => Err TypeError end.
Example C25_streams_in_lists_refuted_example :
  handler_of "gradient" = HDecouple /\
  torch_function (fun _ _ _ => Err Undefined) "gradient" first_tensor [AList [APlain (mkTn [1] (fun _ => 0)) [None]; AStream plus_s]] [] = Err RuntimeError /\
  (match torch_function (fun _ _ _ => Err Undefined) "gradient" first_tensor [AList [APlain (mkTn [1] (fun _ => 0)) [None]]; AStream plus_s] [] with
   | Ok (DPlain t n) => shp t = [1] | _ => False end).
Proof. vm_compute. auto. Qed.

(* ------------------------------------------------------------------ C58, C59 *)

(** x[ids] is x[(ids,)] for integer tensors of any rank. *)
Theorem C58_ints_alone : forall (V : Type) (x : @stensor V) m,
  length (names x) = length (shp (tn x)) -> (1 <= length (shp (tn x)))%nat ->
  x_getitem x (XSingle (XInts m)) = x_getitem x (XTuple [XInts m]).
Proof. intros V x m. apply ints_single. Qed.

Definition fbl : @stensor Z :=
  mkSt (mkTn [2; 2; 3] (fun p => 100 * nth 0 p 0 + 10 * nth 1 p 0 + nth 2 p 0)) [Some "F"; Some "B"; Some "L"]
       (of_rows true [mkRow "a" true false 3 0; mkRow "b" false true 2 1]).
Example C58_ints_alone_example :
  match x_getitem fbl (XSingle (XInts (mkTn [1; 2] (fun p => 1 - nth 1 p 0)))) with
  | Ok (OStream y) => names y = [None; Some "F"; Some "B"; Some "L"] /\ shp (tn y) = [1; 2; 2; 3] /\ at_ (tn y) [0; 0; 1; 2] = 112 /\ smeta y = smeta fbl
  | _ => False
  end.
Proof. vm_compute. auto. Qed.

(** Two Ellipsis with items between them: only if together with the other items (None apart) they are as many as the tensor has
    dimensions. *)
Theorem C59_dots_apart_count : forall (V : Type) (x : @stensor V) l1 l2 l3 y, length (names x) = length (shp (tn x)) ->
  filter dots l1 = [] -> filter dots l2 = [] -> filter dots l3 = [] -> l2 <> [] ->
  x_getitem x (XTuple (l1 ++ Plain IEll :: l2 ++ Plain IEll :: l3)) = Ok y ->
  (length (filter (fun i => match i with Plain INone => false | _ => true end) (l1 ++ l2 ++ l3)) + 2 = length (shp (tn x)))%nat.
Proof.
  intros V x l1 l2 l3 y HR H1 H2 H3 HN E. rewrite <- (dots_apart_count x l1 l2 l3 y HR H1 H2 H3 HN E). do 2 f_equal.
  clear. induction (l1 ++ l2 ++ l3) as [|i l IH]; [reflexivity|]. cbn [filter]. rewrite <- IH. destruct i as [[]| |]; reflexivity.
Qed.

Example C59_dots_apart_count_example :
  (match x_getitem fbl (XTuple [Plain IEll; Plain (IInt 0); Plain IEll]) with Ok _ => True | _ => False end) /\
  x_getitem (mkSt (mkTn [1; 2; 2; 3] (fun p => 0)) [None; Some "F"; Some "B"; Some "L"] (smeta fbl)) (XTuple [Plain IEll; Plain (IInt 0); Plain IEll]) =
    Err IndexError.
Proof. vm_compute. auto. Qed.

(* ------------------------------------------------------------------ C33 *)

(** The data of the input after a call, in all cases: changed only by kernels of width 1 with padding, when some but not all
    streams start and the tensor has room for the padding of every stream; then the starting rows are moved by the padding.
    [valid_cfg]: positive kernel size, dilation and stride. *)
Theorem C33_data_exact : forall (V : Type) (c : conv_cfg V) st z (t : tens V) x', valid_cfg c -> input_after c st (tensor_of z t) = Ok x' ->
  let rolled := (kspan c = 1 /\ 0 < padn c /\ (exists r, In r (trows t) /\ csos r = true) /\ (exists r, In r (trows t) /\ csos r = false) /\
    (forall r, In r (trows t) -> length (cdat r) + (if csos r then padn c else 0) + (if ceos r then padn c else 0) <= tw t))%nat in
  (rolled -> bd x' = map (fun r => if csos r then repeat z (padn c) ++ cdat r ++ repeat z (tw t - length (cdat r) - padn c)
                                   else cdat r ++ repeat z (tw t - length (cdat r))) (trows t)) /\
  (~ rolled -> bd x' = bd (tensor_of z t)).
Proof. intros V c st z t x'. apply input_data. Qed.

Definition width1 : conv_cfg Z := mkCfg 1 1 1 1 (fun l => nth 0 l 0) 0 0.
Definition started (w : nat) : tens Z := mkTens w false [mkChunk "a" false false [7; 8; 9] 0; mkChunk "b" true true [1; 2] 0].
Example C33_data_exact_example :
  match input_after width1 no_buffers (tensor_of 0 (started 4)), input_after width1 no_buffers (tensor_of 0 (started 3)) with
  | Ok a, Ok b => bd a = [[7; 8; 9; 0]; [0; 1; 2; 0]] /\ bd b = [[7; 8; 9]; [1; 2; 0]] | _, _ => False
  end.
Proof. vm_compute. auto. Qed.

(* ------------------------------------------------------------------ C83 *)

(** What a call that succeeds has been given: stride and dilation as tuples of one positive number, data and weights of three
    dimensions that fit together, a bias per output channel, no "same" or negative padding. *)
Theorem C83_requires : forall (V : Type) (A : arith V) (k : conv_args V) (x y : @stensor V) tmp, conv1d_t A k x = Ok (y, tmp) ->
  exists s d n c w o cg ks, stride k = ATuple [s] /\ dilation k = ATuple [d] /\ 0 < s /\ 0 < d /\
    shp (tn x) = [n; c; w] /\ shp (weight k) = [o; cg; ks] /\ 0 < groups k /\ c = cg * groups k /\ o mod groups k = 0 /\ groups k <= o /\
    match bias k with Some b => shp b = [o] | None => True end /\
    match padding k with PSame => False | PValid => True | PNum (AInt q) => 0 <= q | PNum (ATuple []) => False | PNum (ATuple (q :: _)) => 0 <= q end.
Proof. intros V A k x y tmp. apply conv_requires. Qed.

Definition int_arith : arith Z :=
  mkArith 0 (fun v b => if b : bool then v else 0) (fun b l => fold_right (fun q s => fst q * snd q + s) (match b with Some v => v | None => 0 end) l).
Definition small (s d : int_arg) (p : pad_arg) : conv_args Z := mkArgs (mkTn [2; 1; 2] (fun p => nth 0 p 0 + nth 2 p 0)) None s p d 1.
Definition one_stream : @stensor Z := mkSt (mkTn [1; 1; 4] (fun p => nth 2 p 0)) [Some "B"; Some "F"; Some "L"] (of_rows false [mkRow "s" true true 4 0]).
Example C83_requires_example :
  (match conv1d_t int_arith (small (ATuple [1]) (ATuple [1]) (PNum (AInt 1))) one_stream with Ok (y, _) => shp (tn y) = [1; 2; 5] | _ => False end) /\
  conv1d_t int_arith (small (AInt 1) (ATuple [1]) (PNum (AInt 1))) one_stream = Err TypeError /\
  conv1d_t int_arith (small (ATuple [1; 1]) (ATuple [1]) (PNum (AInt 1))) one_stream = Err RuntimeError /\
  conv1d_t int_arith (small (ATuple []) (ATuple [1]) (PNum (AInt 1))) one_stream = Err IndexError /\
  conv1d_t int_arith (small (ATuple [1]) (ATuple [0]) PValid) one_stream = Err RuntimeError.
Proof. vm_compute. auto 10. Qed.

(* ---- assumptions *)
Print Assumptions C23_names.
Print Assumptions C25_streams_in_lists_refuted.
Print Assumptions C58_ints_alone.
Print Assumptions C59_dots_apart_count.
Print Assumptions C33_data_exact.
Print Assumptions C83_requires.

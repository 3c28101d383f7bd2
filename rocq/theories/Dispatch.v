(** Model of StreamTensor.__torch_function__ (dreamstream/tensor.py 774-836, 1035-1056) and of the function sets of
    dreamstream/func_coverage.py.

    A torch function is identified by its name: "f" is torch.f, "Tensor.f" is torch.Tensor.f.  What torch computes is a
    parameter (a [raw] function of positional and keyword arguments); everything the library does around it is
    modelled.  Simplifications:
    - the getters (`__get__`, func_coverage.py 16, 56) are not enumerated;
    - warnings are not modelled;
    - RecursionError is reported as its base class RuntimeError;
    - `out=` and in-place functions change at most the first argument. *)

From Coq Require Import String List ZArith Bool.
From Verif Require Import Py Meta Named.
Import ListNotations.
Open Scope string_scope.
Open Scope list_scope.

(** func_coverage.py 24-55. *)
Definition VALID_CORE : list string :=
  ["Tensor.__repr__"; "Tensor.__str__"; "Tensor.__dir__"; "Tensor.size"; "equal"; "Tensor.rename_";
   "Tensor.zero_"; "Tensor.fill_"; "Tensor.bernoulli_"; "Tensor.cauchy_"; "Tensor.exponential_";
   "Tensor.geometric_"; "Tensor.log_normal_"; "Tensor.normal_"; "Tensor.random_"; "Tensor.uniform_"; "is_complex";
   "Tensor.is_complex"; "is_conj"; "Tensor.is_conj"; "is_floating_point"; "Tensor.is_floating_point";
   "is_nonzero"; "Tensor.is_nonzero"; "numel"; "Tensor.numel"; "Tensor.dim"; "Tensor.imag"; "Tensor.real"].

(** doc_scrape/lists/valid-pointwise-ops-2023_06_19-16_13_42.txt (func_coverage.py 19, 57). *)
Definition VALID_POINTWISE : list string :=
  ["abs_"; "Tensor.abs_"; "Tensor.absolute_"; "acos_"; "Tensor.acos_"; "arccos_"; "Tensor.arccos_"; "acosh_";
   "Tensor.acosh_"; "arccosh_"; "Tensor.arccosh_"; "Tensor.add_"; "Tensor.addcdiv_"; "Tensor.addcmul_"; "asin_";
   "Tensor.asin_"; "arcsin_"; "Tensor.arcsin_"; "asinh_"; "Tensor.asinh_"; "arcsinh_"; "Tensor.arcsinh_"; "atan_";
   "Tensor.atan_"; "arctan_"; "Tensor.arctan_"; "atanh_"; "Tensor.atanh_"; "arctanh_"; "Tensor.arctanh_";
   "Tensor.atan2_"; "Tensor.arctan2_"; "Tensor.bitwise_not_"; "ceil_"; "Tensor.ceil_"; "clamp_"; "Tensor.clamp_";
   "clip_"; "Tensor.clip_"; "cos_"; "Tensor.cos_"; "cosh_"; "Tensor.cosh_"; "deg2rad_"; "Tensor.deg2rad_";
   "Tensor.div_"; "Tensor.divide_"; "Tensor.digamma_"; "erf_"; "Tensor.erf_"; "erfc_"; "Tensor.erfc_";
   "Tensor.erfinv_"; "exp_"; "Tensor.exp_"; "expm1_"; "Tensor.expm1_"; "fix_"; "Tensor.fix_";
   "Tensor.float_power_"; "floor_"; "Tensor.floor_"; "Tensor.floor_divide_"; "frac_"; "Tensor.frac_"; "ldexp_";
   "Tensor.ldexp_"; "Tensor.lgamma_"; "log_"; "Tensor.log_"; "log10_"; "Tensor.log10_"; "log1p_"; "Tensor.log1p_";
   "log2_"; "Tensor.log2_"; "Tensor.logical_and_"; "Tensor.logical_not_"; "Tensor.logical_or_";
   "Tensor.logical_xor_"; "Tensor.hypot_"; "i0_"; "Tensor.i0_"; "Tensor.igamma_"; "Tensor.igammac_";
   "Tensor.mul_"; "Tensor.multiply_"; "neg_"; "Tensor.neg_"; "negative_"; "Tensor.negative_"; "Tensor.nextafter_";
   "Tensor.polygamma_"; "Tensor.pow_"; "rad2deg_"; "Tensor.rad2deg_"; "reciprocal_"; "Tensor.reciprocal_";
   "round_"; "Tensor.round_"; "rsqrt_"; "Tensor.rsqrt_"; "sigmoid_"; "Tensor.sigmoid_"; "Tensor.sign_"; "sin_";
   "Tensor.sin_"; "sinh_"; "Tensor.sinh_"; "sqrt_"; "Tensor.sqrt_"; "square_"; "Tensor.square_"; "Tensor.sub_";
   "Tensor.subtract_"; "tan_"; "Tensor.tan_"; "tanh_"; "Tensor.tanh_"; "Tensor.true_divide_"; "trunc_";
   "Tensor.trunc_"].

(** func_coverage.py 60-76. *)
Definition DEFAULT_CORE : list string :=
  ["Tensor.align_to"; "transpose"; "Tensor.transpose"; "Tensor.rename"; "clone"; "Tensor.clone"; "rand_like";
   "randn_like"; "zeros_like"; "ones_like"; "empty_like"; "full_like"; "Tensor.__abs__"; "Tensor.__neg__";
   "Tensor.__add__"].

(** doc_scrape/lists/default-valid-pointwise-ops-2023_06_19-16_13_42.txt (func_coverage.py 18, 77). *)
Definition DEFAULT_POINTWISE : list string :=
  ["abs"; "Tensor.abs"; "absolute"; "Tensor.absolute"; "acos"; "Tensor.acos"; "arccos"; "Tensor.arccos"; "acosh";
   "Tensor.acosh"; "arccosh"; "Tensor.arccosh"; "add"; "Tensor.add"; "addcdiv"; "Tensor.addcdiv"; "addcmul";
   "Tensor.addcmul"; "angle"; "Tensor.angle"; "asin"; "Tensor.asin"; "arcsin"; "Tensor.arcsin"; "asinh";
   "Tensor.asinh"; "arcsinh"; "Tensor.arcsinh"; "atan"; "Tensor.atan"; "arctan"; "Tensor.arctan"; "atanh";
   "Tensor.atanh"; "arctanh"; "Tensor.arctanh"; "atan2"; "Tensor.atan2"; "arctan2"; "Tensor.arctan2";
   "bitwise_not"; "Tensor.bitwise_not"; "ceil"; "Tensor.ceil"; "clamp"; "Tensor.clamp"; "clip"; "Tensor.clip";
   "conj_physical"; "Tensor.conj_physical"; "cos"; "Tensor.cos"; "cosh"; "Tensor.cosh"; "deg2rad";
   "Tensor.deg2rad"; "div"; "Tensor.div"; "divide"; "Tensor.divide"; "digamma"; "Tensor.digamma"; "erf";
   "Tensor.erf"; "erfc"; "Tensor.erfc"; "erfinv"; "Tensor.erfinv"; "exp"; "Tensor.exp"; "expm1"; "Tensor.expm1";
   "fix"; "Tensor.fix"; "float_power"; "Tensor.float_power"; "floor"; "Tensor.floor"; "floor_divide";
   "Tensor.floor_divide"; "frac"; "Tensor.frac"; "ldexp"; "Tensor.ldexp"; "lgamma"; "Tensor.lgamma"; "log";
   "Tensor.log"; "log10"; "Tensor.log10"; "log1p"; "Tensor.log1p"; "log2"; "Tensor.log2"; "logaddexp";
   "Tensor.logaddexp"; "logaddexp2"; "Tensor.logaddexp2"; "logical_and"; "Tensor.logical_and"; "logical_not";
   "Tensor.logical_not"; "logical_or"; "Tensor.logical_or"; "logical_xor"; "Tensor.logical_xor"; "hypot";
   "Tensor.hypot"; "i0"; "Tensor.i0"; "igamma"; "Tensor.igamma"; "igammac"; "Tensor.igammac"; "mul"; "Tensor.mul";
   "multiply"; "Tensor.multiply"; "neg"; "Tensor.neg"; "negative"; "Tensor.negative"; "nextafter";
   "Tensor.nextafter"; "polygamma"; "Tensor.polygamma"; "positive"; "Tensor.positive"; "pow"; "Tensor.pow";
   "rad2deg"; "Tensor.rad2deg"; "reciprocal"; "Tensor.reciprocal"; "round"; "Tensor.round"; "rsqrt";
   "Tensor.rsqrt"; "sigmoid"; "Tensor.sigmoid"; "sign"; "Tensor.sign"; "signbit"; "Tensor.signbit"; "sin";
   "Tensor.sin"; "sinh"; "Tensor.sinh"; "softmax"; "Tensor.softmax"; "sqrt"; "Tensor.sqrt"; "square";
   "Tensor.square"; "sub"; "Tensor.sub"; "subtract"; "Tensor.subtract"; "tan"; "Tensor.tan"; "tanh";
   "Tensor.tanh"; "true_divide"; "Tensor.true_divide"; "trunc"; "Tensor.trunc"].

(** func_coverage.py 80-90. *)
Definition DECOUPLE : list string :=
  ["argmax"; "argmin"; "argsort"; "allclose"; "Tensor.allclose"; "quantize_per_channel";
   "fake_quantize_per_channel_affine"; "fake_quantize_per_tensor_affine"; "gradient"].

(** func_coverage.py 93-120. *)
Definition RECOUPLE_CORE : list string :=
  ["adjoint"; "sigmoid"; "Tensor.sigmoid"; "transpose"; "where"; "Tensor.where"; "scatter"; "Tensor.scatter";
   "Tensor.scatter_"; "diagonal_scatter"; "Tensor.diagonal_scatter"; "select_scatter"; "Tensor.select_scatter";
   "slice_scatter"; "Tensor.slice_scatter"; "isclose"; "Tensor.isclose"; "randint_like"; "heaviside";
   "Tensor.heaviside"; "dequantize"; "Tensor.dequantize"; "polar"; "complex"; "real"; "imag"].

(** doc_scrape/lists/recouple-pointwise-ops-2023_06_19-16_13_42.txt (func_coverage.py 20, 121). *)
Definition RECOUPLE_POINTWISE : list string :=
  ["bitwise_and"; "Tensor.bitwise_and"; "bitwise_or"; "Tensor.bitwise_or"; "bitwise_xor"; "Tensor.bitwise_xor";
   "bitwise_left_shift"; "Tensor.bitwise_left_shift"; "bitwise_right_shift"; "Tensor.bitwise_right_shift";
   "copysign"; "Tensor.copysign"; "exp2"; "Tensor.exp2"; "fmod"; "Tensor.fmod"; "lerp"; "Tensor.lerp"; "logit";
   "Tensor.logit"; "mvlgamma"; "Tensor.mvlgamma"; "nan_to_num"; "Tensor.nan_to_num"; "remainder";
   "Tensor.remainder"; "sgn"; "Tensor.sgn"; "sinc"; "Tensor.sinc"; "xlogy"; "Tensor.xlogy"].

(** func_coverage.py 123-126 and doc_scrape/lists/inplace-recouple-pointwise-ops-2023_06_19-16_13_42.txt. *)
Definition INPLACE_RECOUPLE : list string :=
  ["Tensor.heaviside_"; "Tensor.bitwise_and_"; "Tensor.bitwise_or_"; "Tensor.bitwise_xor_";
   "Tensor.bitwise_left_shift_"; "Tensor.bitwise_right_shift_"; "conj_physical_"; "Tensor.conj_physical_";
   "Tensor.copysign_"; "exp2_"; "Tensor.exp2_"; "Tensor.fmod_"; "Tensor.lerp_"; "logit_"; "Tensor.logit_";
   "Tensor.mvlgamma_"; "nan_to_num_"; "Tensor.nan_to_num_"; "Tensor.remainder_"; "Tensor.sgn_"; "sinc_";
   "Tensor.sinc_"; "xlogy_"; "Tensor.xlogy_"].

(** The functions registered by @implements in overrides.py (torch.functional.split is torch.split). *)
Definition CUSTOMIZED : list string :=
  ["cat"; "concat"; "concatenate"; "permute"; "Tensor.permute"; "Tensor.split"; "split"; "unbind";
   "Tensor.unbind"; "quantize_per_tensor"; "quantize_per_tensor_dynamic"; "fake_quantize_per_tensor_affine";
   "frexp"; "Tensor.frexp"; "conv1d"; "Tensor.__getitem__"; "narrow"; "Tensor.narrow"; "gather"; "Tensor.gather";
   "take_along_dim"; "Tensor.take_along_dim"; "take"; "Tensor.take"; "select"; "Tensor.select"; "select_copy";
   "index_select"; "Tensor.index_select"; "masked_select"; "scatter_add"; "Tensor.scatter_add";
   "Tensor.scatter_add_"; "scatter_reduce"; "Tensor.scatter_reduce"; "Tensor.scatter_reduce_"; "flatten";
   "Tensor.flatten"; "squeeze"; "Tensor.squeeze"; "unsqueeze"; "Tensor.unsqueeze"].

Definition VALID : list string := VALID_CORE ++ VALID_POINTWISE.
Definition DEFAULT_VALID : list string := DEFAULT_CORE ++ DEFAULT_POINTWISE.
Definition RECOUPLE : list string := RECOUPLE_CORE ++ RECOUPLE_POINTWISE.

Definition mem (f : string) (l : list string) : bool := existsb (String.eqb f) l.

(** Parameters of an override: positional ones and keyword-only ones, each with the answer to "has a default?", and
    whether there is a *args parameter. *)
Record signature : Type := mkSig { s_pos : list (string * bool); s_star : bool; s_kw : list (string * bool) }.

(** The parameters of the registered overrides, overrides.py (line of the def in the comment). *)
Definition SIGNATURES : list (string * signature) :=
  [("cat", mkSig [("tensors", false); ("dim", true)] false [("out", true)]) (* 55 *);
   ("concat", mkSig [("tensors", false); ("dim", true)] false [("out", true)]) (* 55 *);
   ("concatenate", mkSig [("tensors", false); ("dim", true)] false [("out", true)]) (* 55 *);
   ("permute", mkSig [("tensor", false); ("dims", false)] false []) (* 94 *);
   ("Tensor.permute", mkSig [("tensor", false)] true []) (* 102 *);
   ("Tensor.split", mkSig [("tensor", false); ("split_size_or_sections", false); ("dim", true)] false []) (* 127 *);
   ("split", mkSig [("tensor", false); ("split_size_or_sections", false); ("dim", true)] false []) (* 127 *);
   ("unbind", mkSig [("tensor", false); ("dim", true)] false []) (* 144 *);
   ("Tensor.unbind", mkSig [("tensor", false); ("dim", true)] false []) (* 144 *);
   ("quantize_per_tensor", mkSig [("input", false); ("scale", false); ("zero_point", false); ("dtype", false)] false []) (* 167 *);
   ("quantize_per_tensor_dynamic", mkSig [("input", false); ("dtype", false); ("reduce_range", false)] false []) (* 173 *);
   ("fake_quantize_per_tensor_affine", mkSig [("input", false); ("scale", false); ("zero_point", false); ("quant_min", false); ("quant_max", false)] false []) (* 179 *);
   ("frexp", mkSig [("input", false)] false []) (* 185 *);
   ("Tensor.frexp", mkSig [("input", false)] false []) (* 185 *);
   ("conv1d", mkSig [("input", false); ("weight", false); ("bias", true); ("stride", true); ("padding", true); ("dilation", true); ("groups", true)] false []) (* 194 *);
   ("Tensor.__getitem__", mkSig [("self", false); ("indices", false)] false []) (* 477 *);
   ("narrow", mkSig [("input", false); ("dim", false); ("start", false); ("length", false)] false []) (* 578 *);
   ("Tensor.narrow", mkSig [("input", false); ("dim", false); ("start", false); ("length", false)] false []) (* 578 *);
   ("gather", mkSig [("input", false); ("dim", false); ("index", false); ("sparse_grad", true); ("out", true)] false []) (* 594 *);
   ("Tensor.gather", mkSig [("input", false); ("dim", false); ("index", false); ("sparse_grad", true); ("out", true)] false []) (* 594 *);
   ("take_along_dim", mkSig [("input", false); ("indices", false); ("dim", false)] false [("out", true)]) (* 606 *);
   ("Tensor.take_along_dim", mkSig [("input", false); ("indices", false); ("dim", false)] false [("out", true)]) (* 606 *);
   ("take", mkSig [("input", false); ("indices", false)] false [("out", true)]) (* 666 *);
   ("Tensor.take", mkSig [("input", false); ("indices", false)] false [("out", true)]) (* 666 *);
   ("select", mkSig [("input", false); ("dim", false); ("index", false)] false []) (* 703 *);
   ("Tensor.select", mkSig [("input", false); ("dim", false); ("index", false)] false []) (* 703 *);
   ("select_copy", mkSig [("input", false); ("dim", false); ("index", false)] false []) (* 703 *);
   ("index_select", mkSig [("input", false); ("dim", false); ("index", false)] false [("out", true)]) (* 712 *);
   ("Tensor.index_select", mkSig [("input", false); ("dim", false); ("index", false)] false [("out", true)]) (* 712 *);
   ("masked_select", mkSig [("input", false); ("mask", false)] false [("out", true)]) (* 726 *);
   ("scatter_add", mkSig [("input", false); ("dim", false); ("index", false); ("src", false); ("out", true)] false []) (* 738 *);
   ("Tensor.scatter_add", mkSig [("input", false); ("dim", false); ("index", false); ("src", false); ("out", true)] false []) (* 738 *);
   ("Tensor.scatter_add_", mkSig [("input", false); ("dim", false); ("index", false); ("src", false)] false []) (* 767 *);
   ("scatter_reduce", mkSig [("input", false); ("dim", false); ("index", false); ("src", false); ("reduce", false)] false [("out", true); ("include_self", true)]) (* 773 *);
   ("Tensor.scatter_reduce", mkSig [("input", false); ("dim", false); ("index", false); ("src", false); ("reduce", false)] false [("out", true); ("include_self", true)]) (* 773 *);
   ("Tensor.scatter_reduce_", mkSig [("input", false); ("dim", false); ("index", false); ("reduce", false); ("src", false); ("include_self", true)] false []) (* 804 *);
   ("flatten", mkSig [("input", false); ("start_dim", true); ("end_dim", true)] false []) (* 812 *);
   ("Tensor.flatten", mkSig [("input", false); ("start_dim", true); ("end_dim", true)] false []) (* 812 *);
   ("squeeze", mkSig [("input", false); ("dim", true)] false []) (* 828 *);
   ("Tensor.squeeze", mkSig [("input", false); ("dim", true)] false []) (* 828 *);
   ("unsqueeze", mkSig [("input", false); ("dim", false)] false []) (* 853 *);
   ("Tensor.unsqueeze", mkSig [("input", false); ("dim", false)] false []) (* 853 *)].

Definition signature_of (f : string) : option signature :=
  option_map snd (find (fun p => String.eqb f (fst p)) SIGNATURES).

(** Python's rule for calling a function with [n] positional arguments and the keywords [kws]: TypeError for too many
    positional arguments, an unknown keyword, a parameter given twice, or a missing parameter. *)
Definition accepts (g : signature) (n : nat) (kws : list string) : bool :=
  (s_star g || Nat.leb n (List.length (s_pos g)))
  && forallb (fun k => mem k (map fst (skipn n (s_pos g)) ++ map fst (s_kw g))) kws
  && forallb (fun p => snd p || mem (fst p) kws) (skipn n (s_pos g) ++ s_kw g).

(** The branch taken by __torch_function__, tensor.py 792-814: the sets are tried in this order. *)
Inductive handler : Type := HValid | HCustom | HDecouple | HRecouple | HInplace | HDefault.
Definition handler_of (f : string) : handler :=
  if mem f VALID then HValid
  else if mem f CUSTOMIZED then HCustom
  else if mem f DECOUPLE then HDecouple
  else if mem f RECOUPLE then HRecouple
  else if mem f INPLACE_RECOUPLE then HInplace
  else HDefault.

Section Dispatch.
Context {V : Type}.

(** An argument of a torch function. *)
Inductive arg : Type :=
| AStream (x : @stensor V)                        (* StreamTensor *)
| APlain (t : @tensor V) (n : list dname)         (* torch.Tensor *)
| AOther (k : Z)                                  (* any other value *)
| AList (l : list arg).                           (* list or tuple *)

(** An argument as torch's own implementation sees it: neither class nor metadata. *)
Inductive rarg : Type :=
| RT (t : @tensor V) (n : list dname)
| RO (k : Z)
| RL (l : list rarg).

(** What torch returns; [RSelf]: the first argument itself, which now holds the data [t] (in-place functions). *)
Inductive rout : Type :=
| RTen (t : @tensor V) (n : list dname)
| RSelf (t : @tensor V) (n : list dname)
| RVal (k : Z)
| RTuple (l : list rout).

(** What the caller gets. *)
Inductive out : Type :=
| DStream (x : @stensor V)                        (* StreamTensor with metadata *)
| DBare (t : @tensor V) (n : list dname)          (* StreamTensor without a `meta` attribute *)
| DPlain (t : @tensor V) (n : list dname)         (* torch.Tensor *)
| DVal (k : Z)
| DTuple (l : list out).

Definition kwargs : Type := list (string * arg).
Definition raw : Type := list rarg -> list (string * rarg) -> res rout.

Fixpoint raw_of (a : arg) : rarg :=
  match a with
  | AStream x => RT (tn x) (names x)
  | APlain t n => RT t n
  | AOther k => RO k
  | AList l => RL (map raw_of l)
  end.

(** tensor.py 1037-1038: top-level StreamTensors lose their names, everything else is passed on. *)
Definition decoupled (a : arg) : rarg :=
  match a with AStream x => RT (tn x) (repeat None (ndim (tn x))) | _ => raw_of a end.

Definition on_values {A B} (f : A -> B) (l : list (string * A)) : list (string * B) := map (fun p => (fst p, f (snd p))) l.

(** [*args, *kwargs.values()] and its StreamTensors (tensor.py 820, 1044-1045). *)
Definition top (args : list arg) (kw : kwargs) : list arg := args ++ map snd kw.
Definition top_streams (args : list arg) (kw : kwargs) : list (@stensor V) :=
  flat_map (fun a => match a with AStream x => [x] | _ => [] end) (top args kw).

(** A StreamTensor somewhere inside. *)
Fixpoint holds_stream (a : arg) : bool :=
  match a with
  | AStream _ => true
  | AList l => existsb holds_stream l
  | _ => false
  end.
Definition nested_stream (a : arg) : bool := match a with AList l => existsb holds_stream l | _ => false end.

(** torch.Tensor.__torch_function__ called through super(): the function runs without dispatch and tensors in the
    result become StreamTensors without `meta`; a first argument that is returned keeps its attributes. *)
Fixpoint convert (self : option arg) (r : rout) : out :=
  match r with
  | RTen t n => DBare t n
  | RSelf t n => match self with Some (AStream x) => DStream (mkSt t n (smeta x)) | _ => DBare t n end
  | RVal k => DVal k
  | RTuple l => DTuple (map (convert self) l)
  end.
Definition super_call (f : raw) (args : list arg) (kw : kwargs) : res out :=
  do r <- f (map raw_of args) (on_values raw_of kw);
  Ok (convert (hd_error args) r).

(** all(m == m0 for m in ms), tensor.py 821, 1046 (m0 is the first of the list). *)
Fixpoint all_eq (m0 : meta) (ms : list meta) : res bool :=
  match ms with
  | [] => Ok true
  | m :: r => do b <- meta_eq m m0; if b then all_eq m0 r else Ok false
  end.

(** tensor.py 816-836 (default_valid). *)
Definition default_valid (f : raw) (args : list arg) (kw : kwargs) : res out :=
  do o <- super_call f args kw;
  let metas := map smeta (top_streams args kw) in
  do eq <- all_eq (hd (mkMeta [] [] [] [] None) metas) (tl metas);
  if negb eq then Err RuntimeError
  else match o, metas with
       | DStream x, m :: _ => Ok (DStream (mkSt (tn x) (names x) m))
       | DBare t n, m :: _ => Ok (DStream (mkSt t n m))
       | DStream _, [] | DBare _ _, [] => Err IndexError
       | _, _ => Ok o
       end.

(** The result of a function called on plain tensors. *)
Fixpoint as_plain (r : rout) : out :=
  match r with
  | RTen t n | RSelf t n => DPlain t n
  | RVal k => DVal k
  | RTuple l => DTuple (map as_plain l)
  end.

(** tensor.py 1035-1039 (decouple): a StreamTensor left inside a list leads back into __torch_function__ with the same
    arguments, without end. *)
Definition decouple_call (f : raw) (args : list arg) (kw : kwargs) : res rout :=
  if existsb nested_stream (top args kw) then Err RuntimeError
  else f (map decoupled args) (on_values decoupled kw).

(** tensor.py 1042-1050 (recouple). *)
Definition recouple (f : raw) (args : list arg) (kw : kwargs) : res out :=
  let ss := top_streams args kw in
  let metas := map smeta ss in
  let nms := map names ss in
  do eq <- all_eq (hd (mkMeta [] [] [] [] None) metas) (tl metas);
  if negb (eq && forallb (fun n => list_eqb dname_eqb n (hd [] nms)) (tl nms)) then Err RuntimeError
  else
    do r <- decouple_call f args kw;
    match r, ss with
    | (RTen t _ | RSelf t _), x :: _ =>
        do nn <- rename (ndim t) (names x);
        Ok (DStream (mkSt t nn (smeta x)))
    | (RTen _ _ | RSelf _ _), [] => Err IndexError
    | _, _ => Err AttributeError                    (* no rename_ *)
    end.

(** tensor.py 1053-1056 (inplace_recouple): the first argument is returned, changed or not. *)
Definition inplace_recouple (f : raw) (args : list arg) (kw : kwargs) : res out :=
  match args with
  | [] => Err TypeError
  | a :: _ =>
      do r <- decouple_call f args kw;
      match a, r with
      | AStream x, RSelf t _ => Ok (DStream (mkSt t (names x) (smeta x)))
      | AStream x, _ => Ok (DStream x)
      | APlain _ n, RSelf t _ => Ok (DPlain t n)
      | APlain t n, _ => Ok (DPlain t n)
      | AOther k, _ => Ok (DVal k)
      | AList _, _ => Err Undefined                 (* no in-place function takes a list first *)
      end
  end.

(** tensor.py 774-814 (__torch_function__); [custom f] is the override registered for [f] (Named.v, Conv.v). *)
Definition torch_function (custom : string -> list arg -> kwargs -> res out) (f : string) (impl : raw)
    (args : list arg) (kw : kwargs) : res out :=
  match handler_of f with
  | HValid => super_call impl args []                                        (* 793: kwargs are not passed on *)
  | HCustom =>                                                               (* 796 *)
      match signature_of f with
      | Some g => if accepts g (List.length args) (map fst kw) then custom f args kw else Err TypeError
      | None => Err Undefined
      end
  | HDecouple => do r <- decouple_call impl args kw; Ok (as_plain r)
  | HRecouple => recouple impl args kw
  | HInplace => inplace_recouple impl args kw
  | HDefault => default_valid impl args kw
  end.

End Dispatch.

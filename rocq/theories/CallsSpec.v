(** Specification for calls of the overridden functions: the parameters that torch documents for them (torch 2.0, with
    the names that torch accepts), and what an argument of a call stands for. *)

From Coq Require Import String List Bool.
From Verif Require Import Dispatch.
Import ListNotations.
Open Scope string_scope.
Open Scope list_scope.

(** A documented function: name, number of parameters that can only be given by position (the tensor of a method), parameters,
    whether any number of further positional arguments may follow, keyword-only parameters. A parameter has its documented name, the
    name of the same thing in the override, and the answer to "has a default?". *)
Record doc : Type := mkDoc { d_name : string; d_only : nat; d_pos : list (string * string * bool); d_star : bool; d_kw : list (string * string * bool) }.

Definition p_doc (p : string * string * bool) : string := fst (fst p).
Definition p_own (p : string * string * bool) : string := snd (fst p).
Definition p_def (p : string * string * bool) : bool := snd p.
Definition same (s : string) (b : bool) : string * string * bool := (s, s, b).

Definition DOCUMENTED : list doc :=
  let method := ("self", "input", false) in
  [mkDoc "cat" 0 [same "tensors" false; same "dim" true] false [same "out" true];
   mkDoc "concat" 0 [same "tensors" false; same "dim" true] false [same "out" true];
   mkDoc "concatenate" 0 [same "tensors" false; same "dim" true] false [same "out" true];
   mkDoc "permute" 0 [("input", "tensor", false); same "dims" false] false [];
   mkDoc "Tensor.permute" 1 [("self", "tensor", false)] true [];
   mkDoc "split" 0 [same "tensor" false; same "split_size_or_sections" false; same "dim" true] false [];
   mkDoc "Tensor.split" 1 [("self", "tensor", false); ("split_size", "split_size_or_sections", false); same "dim" true] false [];
   mkDoc "unbind" 0 [("input", "tensor", false); same "dim" true] false [];
   mkDoc "Tensor.unbind" 1 [("self", "tensor", false); same "dim" true] false [];
   mkDoc "quantize_per_tensor" 0 [same "input" false; same "scale" false; same "zero_point" false; same "dtype" false] false [];
   mkDoc "quantize_per_tensor_dynamic" 0 [same "input" false; same "dtype" false; same "reduce_range" false] false [];
   mkDoc "fake_quantize_per_tensor_affine" 0
     [same "input" false; same "scale" false; same "zero_point" false; same "quant_min" false; same "quant_max" false] false [];
   mkDoc "frexp" 0 [same "input" false] false [same "out" true];
   mkDoc "Tensor.frexp" 1 [method] false [];
   mkDoc "conv1d" 0 [same "input" false; same "weight" false; same "bias" true; same "stride" true; same "padding" true; same "dilation" true; same "groups" true] false [];
   mkDoc "Tensor.__getitem__" 2 [("self", "self", false); ("index", "indices", false)] false [];
   mkDoc "narrow" 0 [same "input" false; same "dim" false; same "start" false; same "length" false] false [];
   mkDoc "Tensor.narrow" 1 [method; same "dim" false; same "start" false; same "length" false] false [];
   mkDoc "gather" 0 [same "input" false; same "dim" false; same "index" false] false [same "sparse_grad" true; same "out" true];
   mkDoc "Tensor.gather" 1 [method; same "dim" false; same "index" false] false [];
   mkDoc "take_along_dim" 0 [same "input" false; same "indices" false; same "dim" true] false [same "out" true];
   mkDoc "Tensor.take_along_dim" 1 [method; same "indices" false; same "dim" true] false [];
   mkDoc "take" 0 [same "input" false; ("index", "indices", false)] false [];
   mkDoc "Tensor.take" 1 [method; ("index", "indices", false)] false [];
   mkDoc "select" 0 [same "input" false; same "dim" false; same "index" false] false [];
   mkDoc "Tensor.select" 1 [method; same "dim" false; same "index" false] false [];
   mkDoc "select_copy" 0 [same "input" false; same "dim" false; same "index" false] false [];
   mkDoc "index_select" 0 [same "input" false; same "dim" false; same "index" false] false [same "out" true];
   mkDoc "Tensor.index_select" 1 [method; same "dim" false; same "index" false] false [];
   mkDoc "masked_select" 0 [same "input" false; same "mask" false] false [same "out" true];
   mkDoc "scatter_add" 0 [same "input" false; same "dim" false; same "index" false; same "src" false] false [];
   mkDoc "Tensor.scatter_add" 1 [method; same "dim" false; same "index" false; same "src" false] false [];
   mkDoc "Tensor.scatter_add_" 1 [method; same "dim" false; same "index" false; same "src" false] false [];
   mkDoc "scatter_reduce" 0 [same "input" false; same "dim" false; same "index" false; same "src" false; same "reduce" false] false [same "include_self" true];
   mkDoc "Tensor.scatter_reduce" 1 [method; same "dim" false; same "index" false; same "src" false; same "reduce" false] false [same "include_self" true];
   mkDoc "Tensor.scatter_reduce_" 1 [method; same "dim" false; same "index" false; same "src" false; same "reduce" false] false [same "include_self" true];
   mkDoc "flatten" 0 [same "input" false; same "start_dim" true; same "end_dim" true] false [];
   mkDoc "Tensor.flatten" 1 [method; same "start_dim" true; same "end_dim" true] false [];
   mkDoc "squeeze" 0 [same "input" false; same "dim" true] false [];
   mkDoc "Tensor.squeeze" 1 [method; same "dim" true] false [];
   mkDoc "unsqueeze" 0 [same "input" false; same "dim" false] false [];
   mkDoc "Tensor.unsqueeze" 1 [method; same "dim" false] false []].

(** An argument of a call: the i-th one, or the one with a keyword. *)
Inductive argument : Type := At_ (i : nat) | Named_ (k : string).

(** The call with [n] positional arguments and the keywords [kws] gives the argument [a] to the parameter [p] of a function with the
    positional parameters [pos]. *)
Inductive given_to (pos : list string) (n : nat) (kws : list string) (p : string) : argument -> Prop :=
| by_position i : nth_error pos i = Some p -> i < n -> given_to pos n kws p (At_ i)
| by_keyword : In p kws -> given_to pos n kws p (Named_ p).

(** A call that the documentation allows: no more arguments than parameters, every keyword a parameter that is not given by position, every
    parameter without default given. *)
Definition allowed (d : doc) (n : nat) (kws : list string) : Prop :=
  d_only d <= n /\ (d_star d = true \/ n <= List.length (d_pos d)) /\
  (forall k, In k kws -> exists p, p_doc p = k /\ (In p (d_kw d) \/ exists i, n <= i /\ nth_error (d_pos d) i = Some p)) /\
  (forall i p, nth_error (d_pos d) i = Some p -> p_def p = false -> i < n \/ In (p_doc p) kws) /\
  (forall p, In p (d_kw d) -> p_def p = false -> In (p_doc p) kws).

(** The override with signature [g] takes the call and understands every argument as documented. *)
Definition understood (d : doc) (g : signature) (n : nat) (kws : list string) : Prop :=
  accepts g n kws = true /\
  forall p a, In p (d_pos d ++ d_kw d) ->
    (given_to (map p_doc (d_pos d)) n kws (p_doc p) a <-> given_to (map fst (s_pos g)) n kws (p_own p) a).

(** dreamstream/warnings.py, on top of Python's module warnings (3.10 to 3.12).

    The module's filters, version of the filters and registries (`__warningregistry__` of the modules in which warnings
    arise) are a state. Filters on the text of messages and on line numbers are not modelled. Categories are those that matter
    here and one for all others. *)

From Coq Require Import String Ascii List ZArith Bool Lia.
From Verif Require Import Py Meta Named Gather Dispatch.
Import ListNotations.
Open Scope string_scope.
Open Scope list_scope.
Open Scope nat_scope.

(** CatStream is TorchStreamWarning (warnings.py 4), CatFallback TorchStreamFallbackWarning (12). *)
Inductive category := CatWarning | CatOther | CatRuntime | CatStream | CatFallback.
Definition rank (c : category) : nat := match c with CatWarning => 0 | CatOther => 1 | CatRuntime => 2 | CatStream => 3 | CatFallback => 4 end.
Definition cat_eqb (a b : category) : bool := Nat.eqb (rank a) (rank b).
(** issubclass: warnings.py 4, 12. *)
Definition issub (a b : category) : bool :=
  match b with
  | CatWarning => true
  | CatOther => cat_eqb a CatOther
  | _ => match a with CatWarning | CatOther => false | _ => Nat.leb (rank b) (rank a) end
  end.

Inductive action := AError | AIgnore | AAlways | ADefault | AModule | AOnce.
Definition act_eqb (a b : action) : bool :=
  match a, b with AError, AError | AIgnore, AIgnore | AAlways, AAlways | ADefault, ADefault | AModule, AModule | AOnce, AOnce => true | _, _ => false end.

(** A filter: its action, its category, and the module it is for (None: every module). *)
Record wfilter := mkF { f_action : action; f_cat : category; f_module : option string }.
Definition filter_eqb (a b : wfilter) : bool :=
  act_eqb (f_action a) (f_action b) && cat_eqb (f_cat a) (f_cat b) &&
  match f_module a, f_module b with None, None => true | Some x, Some y => String.eqb x y | _, _ => false end.

(** Text, category and line; line 0 stands for the whole module. *)
Definition key := (string * category * nat)%type.
Definition key_eqb (a b : key) : bool :=
  let '(t, c, n) := a in let '(t', c', n') := b in String.eqb t t' && cat_eqb c c' && Nat.eqb n n'.

Record registry := mkR { r_version : nat; r_keys : list key }.
Record wstate := mkW { filters : list wfilter; version : nat; registries : string -> registry; once : list (string * category) }.

(** `_filters_mutated`: every change of the filters makes the registries outdated. Covers filterwarnings, resetwarnings and leaving catch_warnings. *)
Definition set_filters (st : wstate) (l : list wfilter) : wstate := mkW l (S (version st)) (registries st) (once st).

Fixpoint remove1 (f : wfilter) (l : list wfilter) : list wfilter :=
  match l with [] => [] | g :: t => if filter_eqb f g then t else g :: remove1 f t end.
(** warnings.simplefilter(action, category): an equal filter is moved to the front. *)
Definition simplefilter (st : wstate) (a : action) (c : category) : wstate :=
  set_filters st (mkF a c None :: remove1 (mkF a c None) (filters st)).

Definition matches (c : category) (m : string) (f : wfilter) : bool :=
  issub c (f_cat f) && match f_module f with None => true | Some x => String.eqb x m end.
(** The first filter that matches; the action "default" without one. *)
Fixpoint find_action (l : list wfilter) (c : category) (m : string) : action :=
  match l with [] => ADefault | f :: t => if matches c m f then f_action f else find_action t c m end.

Inductive outcome := Shown | Silent | Raised.

Definition upd_reg (r : string -> registry) (m : string) (v : registry) : string -> registry :=
  fun x => if String.eqb x m then v else r x.

(** warnings.warn_explicit for the module [m] and the line [n]. *)
Definition emit (st : wstate) (m : string) (text : string) (c : category) (n : nat) : wstate * outcome :=
  let r := registries st m in
  let keys := if Nat.eqb (r_version r) (version st) then r_keys r else [] in
  let with_keys := fun ks o => mkW (filters st) (version st) (upd_reg (registries st) m (mkR (version st) ks)) o in
  let k := (text, c, n) in
  if existsb (key_eqb k) keys then (with_keys keys (once st), Silent)
  else
    match find_action (filters st) c m with
    | AIgnore => (with_keys keys (once st), Silent)
    | AError => (with_keys keys (once st), Raised)
    | AAlways => (with_keys keys (once st), Shown)
    | ADefault => (with_keys (k :: keys) (once st), Shown)
    | AModule =>
        let alt := (text, c, 0) in
        if existsb (key_eqb alt) (k :: keys) then (with_keys (k :: keys) (once st), Silent)
        else (with_keys (alt :: k :: keys) (once st), Shown)
    | AOnce =>
        if existsb (fun o => String.eqb (fst o) text && cat_eqb (snd o) c) (once st) then (with_keys (k :: keys) (once st), Silent)
        else (with_keys (k :: keys) ((text, c) :: once st), Shown)
    end.

(** A place in a program: module and line. The stack begins with the innermost call. *)
Definition place := (string * nat)%type.

(** warnings.warn with stacklevel: the place that many levels up, 1 being the caller of warn. *)
Definition warn_level (st : wstate) (stack : list place) (level : nat) (text : string) (c : category) : wstate * outcome :=
  let '(m, n) := nth (Nat.pred level) stack ("sys", 1) in emit st m text c n.

(** warnings.py 8-9: [stack] is that of the caller. *)
Definition ds_warn (st : wstate) (stack : list place) (text : string) : wstate * outcome :=
  warn_level st (("dreamstream.warnings", 9) :: stack) 2 text CatStream.

(** warnings.py 16-25, 32. *)
Definition fallback_text (operation description : string) : string :=
  let d := match description with EmptyString => EmptyString | _ => (" " ++ description)%string end in
  ("The `" ++ operation ++ "` operation is not supported for `StreamTensors`" ++ d ++ ". " ++
   "Instead, the `" ++ operation ++ "` operation will return a regular `torch.Tensor` and subsequent " ++
   "operations will be performed without the use of the torchstream functionality. If this was " ++
   "expected, you can suppress this warning by calling `torchstream.suppress_warnings(True)` or by " ++
   "converting your input StreamTensor(s) to regular `torch.Tensors` manually before passing them to " ++
   "the `" ++ operation ++ "` operation. If this was unexpected it might have lead to an error being raised and " ++
   "might indicate an error in your code. If you got an error and think it's a bug in TorchStream, please " ++
   "open an issue on GitHub.")%string.

(** warnings.py 30-35 *)
Definition fallback_warning (st : wstate) (stack : list place) (operation description : string) : wstate * outcome :=
  warn_level st (("dreamstream.warnings", 31) :: stack) 2 (fallback_text operation description) CatFallback.

(** warnings.py 39-41 *)
Definition suppress_warnings (st : wstate) (suppress : bool) : wstate :=
  simplefilter st (if suppress then AIgnore else ADefault) CatStream.

(** tensor.py 789-812: the warning of `__torch_function__` for the function [f] called from [user]. None: no rule asks for one. *)
Definition dispatch_warning (st : wstate) (user : list place) (f : string) : option (wstate * outcome) :=
  if mem f VALID || mem f CUSTOMIZED || mem f DECOUPLE || mem f RECOUPLE || mem f INPLACE_RECOUPLE || mem f DEFAULT_VALID then None
  else Some (ds_warn st (("dreamstream.tensor", 809) :: user)
    ("Function " ++ f ++ " is not handled by StreamTensor.__torch_function__ and may not work as expected.")%string).

(** A customised function that warns in line [line] of overrides.py exactly when it is about to return a plain tensor. The result None: the
    filters turn the warning into an exception. *)
Definition with_warning {R : Type} (st : wstate) (user : list place) (line : nat) (operation description : string)
    (plain : R -> bool) (r : res R) : wstate * option outcome * option (res R) :=
  match r with
  | Ok o =>
      if plain o then
        let '(st', oc) := fallback_warning st (("dreamstream.overrides", line) :: user) operation description in
        (st', Some oc, match oc with Raised => None | _ => Some r end)
      else (st, None, Some r)
  | Err _ => (st, None, Some r)
  end.

Section Calls.
Context {V : Type}.

(** overrides.py 810-824 *)
Definition flatten_call (st : wstate) (user : list place) (x : @stensor V) (s e : Z) :=
  with_warning st user 818 "flatten" "when applied on the batch and/or length dimensions"
    (fun o => match o with inl _ => true | inr _ => false end) (flatten x s e).

(** overrides.py 736-763 (scatter_add) and 771-800 (scatter_reduce): the description depends on the reason. *)
Definition scatter_call (reduce : bool) (st : wstate) (user : list place) (red : V -> list V -> V) (inplace : bool) (input : @operand V) (dim : Z)
    (ix : @tensor Z) (ixi : option (list dname * meta)) (src : @src_arg V) :=
  let infos := match src with
               | SrcTensor s => collected [op_info input; ixi; op_info s; if inplace then op_info input else None]
               | SrcNumber => [] end in
  let is_dim := fun name => match infos with
                            | (nms, _) :: _ => match names_index (Some name) nms with Ok d => (dim =? Z.of_nat d)%Z | Err _ => false end
                            | [] => false end in
  let op := if reduce then "scatter_reduce" else "scatter_add" in
  let plain := fun o => negb (is_stream o) in
  if is_dim BATCH || is_dim LENGTH
  then with_warning st user (if reduce then 789 else 753) op "when applied on the batch or length dimensions" plain (scatter red inplace input dim ix ixi src)
  else with_warning st user (if reduce then 793 else 757) op
         "when more than one of input, index and src are StreamTensor with different StreamMetadata" plain (scatter red inplace input dim ix ixi src).
End Calls.

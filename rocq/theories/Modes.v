(** Model of patching and mode switching: dreamstream/patches/general.py 7-43, dreamstream/patches/modes.py 6-27 and
    the hook part of dreamstream/patches/conv.py 13-73.

    A module is a tree.  Simplifications: a module object occurs once in the tree (nn.Module.apply visits an object that
    is registered under two parents twice: ModuleGraph.v); hooks registered by others and attributes that have nothing to do with
    streaming are not modelled; the call of a container (its forward function) is not modelled here (Stack.v). *)

From Coq Require Import String List ZArith Bool Lia.
From Verif Require Import Py Meta Pad Conv.
Import ListNotations.

Section Modes.
Context {V : Type}.

(** general.py 7-9, 20-21, 27-41: how patch_module classifies a module; subclasses of nn.Conv1d are not found in the
    dictionary, which is indexed by the exact type. *)
Inductive kind : Type :=
| KConv (c : conv_cfg V)          (* type(module) is nn.Conv1d *)
| KSubConv (c : conv_cfg V)       (* a subclass of nn.Conv1d *)
| KUnsupported                    (* Conv2d, ..., MultiheadAttention *)
| KOther.

(** Attributes and hooks that patching adds (modes.py 24-26, conv.py 64-71). *)
Record attrs : Type := mkAttrs {
  streaming : bool;
  hooks : nat;                    (* how many times both hooks are registered *)
  stream_buffer : buffers V
}.

(** None: no attributes `online`, `offline`, `streaming` (never patched). *)
Inductive module : Type := Mod (k : kind) (a : option attrs) (children : list module).

(** Hooks and buffers present before (a module that was never patched has none). *)
Definition old_hooks (a : option attrs) : nat := match a with Some a => hooks a | None => 0 end.
Definition old_buffers (a : option attrs) : buffers V := match a with Some a => stream_buffer a | None => no_buffers end.

(** modes.py 22-27 (add_streaming_modes). *)
Definition add_streaming_modes (a : option attrs) : attrs := mkAttrs false (old_hooks a) (old_buffers a).

(** conv.py 60-73 (patch_conv_1d): hooks are registered once more, the buffers are emptied. *)
Definition patch_conv_1d (a : option attrs) : attrs :=
  mkAttrs (streaming (add_streaming_modes a)) (S (hooks (add_streaming_modes a))) no_buffers.

(** general.py 18-43 (patch_module): new attributes, exception. *)
Definition patch_module (k : kind) (a : option attrs) : attrs * option exn :=
  match k with
  | KConv _ => (patch_conv_1d a, None)
  | KUnsupported => (add_streaming_modes a, Some NotImplementedError)
  | _ => (add_streaming_modes a, None)
  end.

(** A loop over children that stops at the first exception. *)
Definition until_error (f : module -> module * option exn) : list module -> list module * option exn :=
  fix go l :=
    match l with
    | [] => ([], None)
    | m :: t =>
        match f m with
        | (m', Some e) => (m' :: t, Some e)
        | (m', None) => let '(t', r) := go t in (m' :: t', r)
        end
    end.

(** general.py 12-15 (patch), via nn.Module.apply: children first, then the module itself. *)
Fixpoint patch (m : module) : module * option exn :=
  match m with
  | Mod k a ch =>
      match until_error patch ch with
      | (ch', Some e) => (Mod k a ch', Some e)
      | (ch', None) => let '(a', r) := patch_module k a in (Mod k (Some a') ch', r)
      end
  end.

(** modes.py 11-14: `self.streaming = mode`, then the same for the children; a module that was never patched has no
    attribute `online`. *)
Fixpoint set_online (b : bool) (m : module) : module * option exn :=
  match m with
  | Mod k None ch => (Mod k None ch, Some AttributeError)
  | Mod k (Some a) ch =>
      let '(ch', r) := until_error (set_online b) ch in
      (Mod k (Some (mkAttrs b (hooks a) (stream_buffer a))) ch', r)
  end.

(** modes.py 6-19: online(mode), online(something that is not a bool), offline(). *)
Inductive switch : Type := Online (b : bool) | OnlineOther | Offline.

Definition do_switch (s : switch) (m : module) : module * option exn :=
  match s with
  | Online b => set_online b m
  | Offline => set_online false m
  | OnlineOther =>
      match m with
      | Mod _ None _ => (m, Some AttributeError)
      | Mod _ (Some _) _ => (m, Some ValueError)                     (* 8-9 *)
      end
  end.

(** patch(patch(...)), [n] times, as long as no exception is raised. *)
Fixpoint patches (n : nat) (m : module) : module * option exn :=
  match n with
  | O => (m, None)
  | S k => match patch m with
           | (m', Some e) => (m', Some e)
           | (m', None) => patches k m'
           end
  end.

(** conv.py 13-42 (conv_1d_pre_hook) in both modes. *)
Definition pre_hook_any (c : conv_cfg V) (a : attrs) (t : tensor_in V) : res (tensor_in V) :=
  match streaming a, t with
  | false, Stream _ => Err RuntimeError                               (* 16-17 *)
  | false, Plain w rows => Ok (Plain w rows)                          (* 18 *)
  | true, Plain _ _ => Err RuntimeError                               (* 21-22 *)
  | true, Stream x => do x' <- pre_hook c (stream_buffer a) x; Ok (Stream x')
  end.

(** nn.Module.__call__: the registered pre-hooks one after the other, each fed with the result of the one before. *)
Fixpoint pre_hooks (n : nat) (c : conv_cfg V) (a : attrs) (t : tensor_in V) : res (tensor_in V) :=
  match n with
  | O => Ok t
  | S k => do t' <- pre_hook_any c a t; pre_hooks k c a t'
  end.

(** conv.py 45-57 (conv_1d_post_hook); [tmp] is outputs.meta._temp_buffer, and `dict.update(None)` raises
    TypeError. *)
Definition post_hook_any (a : attrs) (m : meta) (tmp : option (list (string * list V))) : res attrs :=
  if streaming a
  then match tmp with
       | None => Err TypeError
       | Some b => Ok (mkAttrs (streaming a) (hooks a) (post_hook (stream_buffer a) m b))
       end
  else Ok a.

(** The post-hooks one after the other; in streaming mode each sets _temp_buffer to None (conv.py 49). *)
Fixpoint post_hooks (n : nat) (a : attrs) (m : meta) (tmp : option (list (string * list V))) : res attrs :=
  match n with
  | O => Ok a
  | S k => do a' <- post_hook_any a m tmp; post_hooks k a' m (if streaming a then None else tmp)
  end.

(** Calling a convolution module whose attributes are [a] (None: never patched): output and new attributes.  The plain
    forward function dispatches to the override of conv1d for StreamTensors (overrides.py 193-256). *)
Definition node_call (c : conv_cfg V) (a : option attrs) (t : tensor_in V) : res (tensor_in V * option attrs) :=
  do t' <- match a with None => Ok t | Some a => pre_hooks (hooks a) c a t end;
  match t' with
  | Plain w rows => do '(n, out) <- torch_conv1d c (padn c) w rows; Ok (Plain n out, a)
  | Stream x =>
      do '(y, tmp) <- conv1d c x;
      match a with
      | None => Ok (Stream y, None)
      | Some a => do a' <- post_hooks (hooks a) a (bm y) (Some tmp); Ok (Stream y, Some a')
      end
  end.

(** nn.Module.__call__ of the convolution found by following child numbers [p]; other modules are not called
    directly.  When the call fails the attributes are taken to be unchanged (with hooks registered twice the first
    post-hook may already have stored buffers; not modelled). *)
Fixpoint call_at (p : list nat) (t : tensor_in V) (m : module) : module :=
  match p, m with
  | [], Mod k a ch =>
      match k with
      | KConv c | KSubConv c => match node_call c a t with Ok (_, a') => Mod k a' ch | Err _ => m end
      | _ => m
      end
  | i :: p', Mod k a ch =>
      match nth_error ch i with
      | Some c => Mod k a (list_set ch i (call_at p' t c))
      | None => m
      end
  end.

(** A history of mode switches and calls. *)
Inductive event : Type := Switch (s : switch) | Call (p : list nat) (t : tensor_in V).
Fixpoint events (es : list event) (m : module) : module :=
  match es with
  | [] => m
  | Switch s :: r => events r (fst (do_switch s m))
  | Call p t :: r => events r (call_at p t m)
  end.

End Modes.
Arguments kind V : clear implicits.
Arguments attrs V : clear implicits.
Arguments module V : clear implicits.
Arguments event V : clear implicits.

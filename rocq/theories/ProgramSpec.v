(** Vocabulary for the example program. *)

From Coq Require Import String List ZArith Bool Lia.
From Verif Require Import Py Meta MetaSpec Pad Conv ConvSpec Stack StackSpec.
Import ListNotations.
Open Scope nat_scope.

(** Kernel span, stride and padding of a convolution. *)
Definition shape : Type := nat * nat * nat.

(** Number of kernel positions in [n] columns. *)
Definition positions (k s n : nat) : nat := if n <? k then 0 else (n - k) / s + 1.

(** The chunks of one stream have the sizes [ns], the last one ends the stream: the number of columns the convolution
    gives for each of them. [past] columns have been received before, padding included. *)
Fixpoint later_sizes (k s p past : nat) (ns : list nat) : list nat :=
  match ns with
  | [] => []
  | n :: t => let now := past + n + match t with [] => p | _ => 0 end in
              positions k s now - positions k s past :: later_sizes k s p now t
  end.
Definition out_sizes (sh : shape) (ns : list nat) : list nat :=
  let '(k, s, p) := sh in
  match ns with
  | [] => []
  | n :: t => let now := p + n + match t with [] => p | _ => 0 end in positions k s now :: later_sizes k s p now t
  end.

(** No chunk of the stream is empty, neither in front of a layer nor at the end. *)
Fixpoint lasting (shs : list shape) (ns : list nat) : Prop :=
  Forall (fun n => 1 <= n) ns /\ match shs with [] => True | sh :: t => lasting t (out_sizes sh ns) end.

(** A simple sufficient condition: lower bounds for the first, the middle and the last chunk of a stream. *)
Fixpoint wide (shs : list shape) (a m e : nat) : Prop :=
  1 <= a /\ 1 <= m /\ 1 <= e /\
  match shs with
  | [] => True
  | (k, s, p) :: t => k <= a + p /\ wide t ((a + p - k) / s + 1) (m / s) ((e + p) / s)
  end.

(** Two chunks or more; the first has at least [a], the last at least [e], the others at least [m] columns. *)
Definition at_least (a m e : nat) (ns : list nat) : Prop :=
  exists f ms l, ns = f :: ms ++ [l] /\ a <= f /\ Forall (fun n => m <= n) ms /\ e <= l.

(** A piece of data cut at random: positive sizes that add up, all but the last between [mn] and [mx], the last not more
    than [mx]. *)
Definition random_cut (mn mx full : Z) (cs : list Z) : Prop :=
  zsum cs = full /\ exists ms l, cs = ms ++ [l] /\ Forall (fun c => mn <= c <= mx)%Z ms /\ (0 < l <= mx)%Z.

(** Number of heads. *)
Definition heads (coins : list bool) : nat := length (filter (fun b => b) coins).

(** The batches hold every chunk once: those of every stream in their order, no two of the same stream in a batch.
    [who] tells the stream of a chunk. *)
Definition deals {A} (who : A -> string) (data : list (string * list A)) (steps : list (list A)) : Prop :=
  Forall (fun b => b <> [] /\ NoDup (map who b)) steps /\
  (forall i l, In (i, l) data -> filter (fun a => String.eqb (who a) i) (List.concat steps) = l) /\
  (forall a, In a (List.concat steps) -> exists l, In (who a, l) data).

Section ProgramSpec.
Context {V : Type}.

(** The convolutions of a network. *)
Fixpoint shapes_of (Ls : list (layer V)) : list shape :=
  match Ls with
  | [] => []
  | LConv c :: t => (kspan c, strd c, padn c) :: shapes_of t
  | LMap _ :: t => shapes_of t
  end.

(** Convolutions torch accepts, with stride below the kernel span; or kernel size and stride 1. *)
Definition smooth_layer (L : layer V) : Prop :=
  match L with LConv c => valid_cfg c /\ (strd c < kspan c \/ kspan c = 1 /\ strd c = 1) | LMap _ => True end.

(** No chunk of the stream is empty, neither in front of a layer nor at the end. *)
Fixpoint all_survive (Ls : list (layer V)) (l : list (chunk V)) : Prop :=
  Forall (fun r => cdat r <> []) l /\ match Ls with [] => True | L :: Ls' => all_survive Ls' (layer_chunks L l) end.

(** The chunks of all streams, one chunk per batch, stream after stream. *)
Definition one_at_a_time (pieces : list (list (chunk V))) : list (list (chunk V)) := map (fun r => [r]) (List.concat pieces).

End ProgramSpec.

(** The convolutions of torchaudio.models.Wav2Letter with input_type="waveform" (wav2letter.py 28). *)
Definition wav2letter_shapes : list shape :=
  [(250, 160, 45); (48, 2, 23)] ++ repeat (7, 1, 3) 7 ++ [(32, 1, 16); (1, 1, 0); (1, 1, 0)].

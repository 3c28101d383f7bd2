(** Vocabulary for the statements about chunk indices on their way through a network into the collector. *)

From Coq Require Import String List ZArith Bool Lia.
From Verif Require Import Py Meta MetaSpec Pad Conv ConvSpec Stack StackSpec.
Import ListNotations.
Open Scope nat_scope.

Section KeepSpec.
Context {V : Type}.
Implicit Types (sched : list (list (chunk V))) (rs : list (chunk V)) (r q : chunk V).

(** The number of columns a stream has received that the next output still needs: all but those the kernel has stepped
    over. Nothing if the stream starts. *)
Definition waiting (c : conv_cfg V) sched r : nat :=
  if csos r then 0
  else let n := length (so_far (pending c None (stream_of (cid r) sched))) in n - nwin c n * strd c.

(** The convolution keeps the chunk indices of the batch [rs] that comes after [sched]: the kernel has width 1, or the same
    number of columns is waiting for all rows. *)
Definition keeps (c : conv_cfg V) sched rs : bool :=
  (kspan c =? 1) || forallb (fun r => forallb (fun q => waiting c sched r =? waiting c sched q) rs) rs.

(** Which outputs of the network carry chunk indices, if [hs] tells which batches do. *)
Fixpoint carried (Ls : list (layer V)) sched (hs : list bool) : list bool :=
  match Ls with
  | [] => hs
  | LConv c as L :: Ls' =>
      carried Ls' (layer_schedule L sched)
        (map (fun k => nth k hs false && keeps c (firstn k sched) (nth k sched [])) (seq 0 (length sched)))
  | L :: Ls' => carried Ls' (layer_schedule L sched) hs
  end.

(** The schedule behind the network. *)
Definition out_schedule (Ls : list (layer V)) sched : list (list (chunk V)) := fold_left (fun s L => layer_schedule L s) Ls sched.

(** The non-empty chunks of a stream agree about chunk indices. *)
Definition agreeing (hs : list bool) sched : Prop :=
  forall j k h g rs qs r q, nth_error hs j = Some h -> nth_error hs k = Some g ->
    nth_error sched j = Some rs -> nth_error sched k = Some qs -> In r rs -> In q qs -> cid r = cid q ->
    cdat r <> [] -> cdat q <> [] -> h = g.

(** In every batch all rows start, or none does. *)
Definition in_phase sched : Prop :=
  Forall (fun rs => (forall r, In r rs -> csos r = true) \/ (forall r, In r rs -> csos r = false)) sched.

(** In front of every convolution the first chunk of a stream that goes on fills the kernel but for one column. *)
Fixpoint filled (Ls : list (layer V)) (l : list (chunk V)) : Prop :=
  match Ls with
  | [] => True
  | L :: Ls' =>
      match L with
      | LConv c => Forall (fun r => csos r = true -> ceos r = false -> kspan c <= padn c + length (cdat r) + 1) l
      | LMap _ => True
      end /\ filled Ls' (layer_chunks L l)
  end.

Definition unit_stride (L : layer V) : Prop := match L with LConv c => strd c = 1 | LMap _ => True end.

End KeepSpec.

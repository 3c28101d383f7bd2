(** Vocabulary for the end-to-end statement. *)

From Coq Require Import String List ZArith Bool Lia.
From Verif Require Import Py Meta MetaSpec Pad Conv ConvSpec Stack StackSpec.
Import ListNotations.
Open Scope nat_scope.

Section PipelineSpec.
Context {V : Type}.

(** A way to cut [n] columns into non-empty pieces. *)
Definition proper_cut (n : nat) (s : ssize) : Prop :=
  match s with
  | SInt k => (1 <= k)%Z
  | SList l => Forall (fun k => 0 < k)%Z l /\ zsum l = Z.of_nat n
  end.

(** The start and end chunks hold data in front of every layer and at the end. *)
Fixpoint survives_through (Ls : list (layer V)) (l : list (chunk V)) : Prop :=
  flagged_nonempty l /\ match Ls with [] => True | L :: Ls' => survives_through Ls' (layer_chunks L l) end.

(** The pieces of every item are a complete stream of non-empty chunks with its id and its data. *)
Definition items_ok (items : list (string * list V)) (pieces : list (list (chunk V))) : Prop :=
  Forall2 (fun it l => complete l /\ data_of l = snd it /\ Forall (fun r => cid r = fst it /\ cdat r <> []) l) items pieces.

(** A schedule of the pieces: batches without repeated ids in which the chunks of every item come in order. *)
Definition scheduled (items : list (string * list V)) (pieces sched : list (list (chunk V))) : Prop :=
  Forall (fun g => g <> [] /\ NoDup (map cid g)) sched /\
  Forall2 (fun it l => stream_of (fst it) sched = l) items pieces /\
  (forall r, In r (List.concat sched) -> In (cid r) (map fst items)).

End PipelineSpec.

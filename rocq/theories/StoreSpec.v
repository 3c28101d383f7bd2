(** Vocabulary for the statements about memory shared between the caller and a module's stream buffers. Uses only the
    data types of the model. *)

From Coq Require Import String List ZArith Bool Lia.
From Verif Require Import Py Meta MetaSpec Pad Conv Store.
Import ListNotations.
Open Scope nat_scope.

Section StoreSpec.
Context {V : Type}.

(** The batches a caller passes to the module, each as it is at the time of the call; [mn] are the contents of the caller's
    tensors. *)
Fixpoint fed (mn : nat -> list (list V)) (es : list (event V)) : list (batch V) :=
  match es with
  | [] => []
  | Write n rows :: r => fed (fun k => if Nat.eqb k n then rows else mn k) r
  | Call n w m :: r => mkBatch w (mn n) m :: fed mn r
  end.

(** The contents of the caller's tensors if nobody but the caller writes to them. *)
Fixpoint written (mn : nat -> list (list V)) (es : list (event V)) : nat -> list (list V) :=
  match es with
  | [] => mn
  | Write n rows :: r => written (fun k => if Nat.eqb k n then rows else mn k) r
  | Call _ _ _ :: r => written mn r
  end.

(** Every batch has one row of data per stream. *)
Definition one_row_each (x : batch V) : Prop := wf (bm x) /\ length (bd x) = length (ids (bm x)).

(** The streams of a batch that go on after it. *)
Definition goes_on (m : meta) (i : string) : Prop := exists j, nth_error (ids m) j = Some i /\ nth_error (eos m) j = Some false.

(** A call that neither prepends buffers nor pads: all streams start, and with zero padding every row fits into the given
    width [w]. *)
Definition unpadded (c : conv_cfg V) (w : nat) (m : meta) : Prop :=
  (forall b, In b (sos m) -> b = true) /\
  (padn c = 0 \/
   forall j n e, nth_error (lens m) j = Some n -> nth_error (eos m) j = Some e ->
     (n + Z.of_nat (padn c) + (if e : bool then Z.of_nat (padn c) else 0) <= Z.of_nat w)%Z).

(** Whoever writes to a tensor given to such a call has before given every stream of it that goes on its next chunk. *)
Definition patient (c : conv_cfg V) (es : list (event V)) : Prop :=
  forall e1 n w m e2 rows e3 i, es = e1 ++ Call n w m :: e2 ++ Write n rows :: e3 ->
    unpadded c w m -> goes_on m i -> exists n' w' m', In (Call n' w' m') e2 /\ In i (ids m').

End StoreSpec.

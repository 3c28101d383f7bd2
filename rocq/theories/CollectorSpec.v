(** Vocabulary for the statements about OutputCollector. *)

From Coq Require Import String List ZArith Bool Lia.
From Verif Require Import Py Meta MetaSpec Pad Conv ConvSpec Collector.
Import ListNotations.
Open Scope nat_scope.

Section CollectorSpec.
Context {V : Type}.

(** The chunk tensor without batch dimension that holds chunk [r]; [h] tells whether chunk indices are present. *)
Definition single_tensor (h : bool) (r : chunk V) : single V :=
  mkSingle (cdat r) (mkMeta [cid r] [csos r] [ceos r] [Z.of_nat (length (cdat r))] (if h then Some [cch r] else None)).

(** What is handed to the collector: a batch of some width, or one chunk without batch dimension. *)
Inductive delivery : Type := DBatch (w : nat) (rs : list (chunk V)) | DSingle (r : chunk V).

Definition as_input (z : V) (h : bool) (d : delivery) : coll_in V :=
  match d with
  | DBatch w rs => InBatch (tensor_of z (mkTens w h rs))
  | DSingle r => InSingle (single_tensor h r)
  end.
Definition wide_enough (d : delivery) : Prop := match d with DBatch w rs => longest rs <= w | DSingle _ => True end.

(** The chunks that count: empty rows of a batch are skipped. *)
Definition delivered (d : delivery) : list (chunk V) :=
  match d with
  | DBatch _ rs => filter (fun r => negb (Nat.eqb (length (cdat r)) 0)) rs
  | DSingle r => [r]
  end.

(** The stream starts with its first chunk only, and nothing follows its end. *)
Definition conforming (l : list (chunk V)) : Prop :=
  forall k r, nth_error l k = Some r -> csos r = (k =? 0) /\ (ceos r = true -> S k = length l).

(** The whole of a stream: all its data, one start, ended if the last chunk was. *)
Definition joined (h : bool) (l : list (chunk V)) (x : single V) : Prop :=
  exists first lst, hd_error l = Some first /\ nth_error l (length l - 1) = Some lst /\
    x = mkSingle (data_of l) (mkMeta [cid first] [csos first] [ceos lst] [Z.of_nat (length (data_of l))]
                                     (if h then Some [cch lst] else None)).

End CollectorSpec.
Arguments delivery V : clear implicits.

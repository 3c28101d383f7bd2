(** Model of OutputCollector (dreamstream/data/data_objects.py 102-136).

    The dict is a partial map from ids to chunks without batch dimension (order of the keys not modelled), closed_entries
    a set of ids. Methods change the collector in place and may raise half way, so they return the new state together
    with the exception raised, if any. *)

From Coq Require Import String List ZArith Bool Lia.
From Verif Require Import Py Meta Pad.
Import ListNotations.
Open Scope Z_scope.

Section Collector.
Context {V : Type}.

Record collector : Type := mkColl { entries : string -> option (single V); closed : string -> bool }.

(** data_objects.py 103-106. *)
Definition new_collector : collector := mkColl (fun _ => None) (fun _ => false).

(** overrides.py 55-81 (cat) of two chunks without batch dimension along the length dimension: the first must not
    have padding, metadata by cat_length (80: `+= sum([])` adds nothing). Both chunks have the same names and agree in
    the other dimensions. *)
Definition cat_two (a b : single V) : res (single V) :=
  do lo <- zmin (lens (sm a));                                                (* 75: lengths.min() *)
  if lo <? zlen (sd a) then Err NotImplementedError
  else do m <- cat_length [sm a; sm b]; Ok (mkSingle (sd a ++ sd b) m).

(** sos.item() / eos.item(). *)
Definition item (l : list bool) : res bool := match l with [b] => Ok b | _ => Err RuntimeError end.

Definition close (st : collector) (i : string) : collector :=
  mkColl (entries st) (fun j => String.eqb j i || closed st j).
Definition store (st : collector) (i : string) (x : single V) : collector :=
  mkColl (fun j => if String.eqb j i then Some x else entries st j) (closed st).

(** data_objects.py 118-136 (_update_unary). *)
Definition update_unary (st : collector) (x : single V) : collector * option exn :=
  match ids (sm x) with
  | [] => (st, Some IndexError)                                               (* 119 *)
  | i :: _ =>
      if closed st i then (st, Some ValueError)                               (* 121-122 *)
      else
        match item (eos (sm x)) with
        | Err e => (st, Some e)
        | Ok e =>
            let st1 := if e then close st i else st in                        (* 123-124 *)
            match item (sos (sm x)) with
            | Err e => (st1, Some e)
            | Ok s =>
                match entries st1 i with
                | Some old =>
                    if s then (st1, Some ValueError)                          (* 127-128 *)
                    else match cat_two old x with                             (* 130-131 *)
                         | Ok y => (store st1 i y, None)
                         | Err e => (st1, Some e)
                         end
                | None =>
                    if s then (store st1 i x, None)                           (* 136 *)
                    else (st1, Some ValueError)                               (* 133-134 *)
                end
            end
        end
  end.

(** One positional argument of update: with or without batch dimension. *)
Inductive coll_in : Type := InBatch (x : batch V) | InSingle (x : single V).

Fixpoint update_rows (st : collector) (xs : list (single V)) : collector * option exn :=
  match xs with
  | [] => (st, None)
  | x :: t =>
      match max_length (sm x) with
      | Err e => (st, Some e)
      | Ok n => if 0 <? n                                                     (* 112 *)
                then match update_unary st x with
                     | (st1, None) => update_rows st1 t
                     | r => r
                     end
                else update_rows st t
      end
  end.

(** data_objects.py 108-116 (update). *)
Definition update_one (st : collector) (t : coll_in) : collector * option exn :=
  match t with
  | InBatch x => match unpad_sequence x with
                 | Err e => (st, Some e)
                 | Ok xs => update_rows st xs                                 (* 111-113 *)
                 end
  | InSingle x => if Nat.eqb (length (ids (sm x))) 1 then update_unary st x   (* 115-116 *)
                  else (st, Some AssertionError)
  end.

Fixpoint update (st : collector) (ts : list coll_in) : collector * option exn :=
  match ts with
  | [] => (st, None)
  | t :: ts' => match update_one st t with
                | (st1, None) => update st1 ts'
                | r => r
                end
  end.

End Collector.
Arguments collector V : clear implicits.
Arguments coll_in V : clear implicits.

(** Model of StreamMetadata.__repr__, dreamstream/tensor.py 336-370.

    repr() of a string ([r]) and of a tensor ([rt], [rb]) are arbitrary functions; len() of a string is the number of its characters. *)

From Coq Require Import String List ZArith Bool Lia.
From Verif Require Import Py Meta.
Import ListNotations.
Open Scope string_scope.
Open Scope nat_scope.

(** ids[i] for i >= 0. *)
Definition at_id (l : list string) (i : nat) : res string :=
  match nth_error l i with Some s => Ok s | None => Err IndexError end.

(** ", ".join(l). *)
Definition joined (l : list string) : string := String.concat ", " l.

(** tensor.py 353-357: the loop. [fuel] bounds the rounds; every round reads ids[i + 1], so length ids rounds are enough, and running out
    of them is an error of its own. *)
Fixpoint shown_ids (r : string -> string) (fuel : nat) (ids shown : list string) (len i : nat) : res (list string) :=
  if len <? 80 then
    match fuel with
    | O => Err Undefined
    | S fuel' =>
        do a <- at_id ids i;                                          (* 354-355 *)
        do b <- at_id ids (i + 1);                                    (* 356 *)
        shown_ids r fuel' ids (app shown [r a]) (len + (String.length (r b) + 2)) (i + 1)
    end
  else Ok shown.

(** repr() of a list of strings. *)
Definition repr_list (r : string -> string) (ids : list string) : string := "[" ++ joined (map r ids) ++ "]".

(** tensor.py 347-361. *)
Definition repr_ids (r : string -> string) (ids : list string) : res string :=
  if 80 <? list_sum (map String.length ids) then
    do z <- at_id ids (List.length ids - 1);                          (* 349: ids[-1] *)
    let last := r z in
    do a <- at_id ids 0;                                              (* 350 *)
    do b <- at_id ids 1;                                              (* 351 *)
    do shown <- shown_ids r (List.length ids) ids [r a] (String.length (r a) + String.length last + 7 + String.length (r b)) 1;
    Ok (joined shown ++ ", ..., " ++ r last)                          (* 359 *)
  else Ok (repr_list r ids).

Definition newline : string := String (Ascii.ascii_of_nat 10) "".

(** tensor.py 363-370. *)
Definition repr_meta (r : string -> string) (rb : list bool -> string) (rt : list Z -> string) (m : meta) : res string :=
  do s <- repr_ids r (ids m);
  Ok ("StreamMetadata(" ++ newline ++ "    ids=" ++ s ++ "," ++ newline ++ "    sos=" ++ rb (sos m) ++ "," ++ newline ++
      "    eos=" ++ rb (eos m) ++ "," ++ newline ++ "    lengths=" ++ rt (lens m) ++ "," ++ newline ++ ")").

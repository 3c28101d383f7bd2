(** Vocabulary for align_to (C87). *)

From Coq Require Import String List ZArith Bool Lia.
From Verif Require Import Py Meta Named NamedSpec.
Import ListNotations.
Open Scope Z_scope.

(** Every dimension has a name, no two the same. *)
Definition fully_named (l : list dname) : Prop := names_distinct l /\ ~ In None l.

(** [ix] and [jx] are the same position if the dimensions are called [a] and [b]. *)
Definition same_place (a b : list dname) (ix jx : list Z) : Prop :=
  forall k d s, nth_error a k = Some (Some s) -> nth_error b d = Some (Some s) -> nth k ix 0 = nth d jx 0.

(** [y] is [x] with its dimensions in the order [target], those that [x] does not have being new and of size 1. *)
Record realigned {V} (x : @stensor V) (target : list dname) (y : @stensor V) : Prop := mkRealigned {
  ra_names : names y = target;
  ra_meta : smeta y = smeta x;
  ra_rank : length (shp (tn y)) = length target;
  ra_old : forall k d s, nth_error target k = Some (Some s) -> nth_error (names x) d = Some (Some s) ->
             nth k (shp (tn y)) 0 = nth d (shp (tn x)) 0;
  ra_new : forall k s, nth_error target k = Some (Some s) -> ~ In (Some s) (names x) -> nth k (shp (tn y)) 0 = 1;
  ra_data : forall ix jx, length ix = length target -> length jx = length (names x) -> same_place target (names x) ix jx ->
              at_ (tn y) ix = at_ (tn x) jx
}.

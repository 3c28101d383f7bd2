(** Vocabulary for the statements about lazily built, shared and cached metadata objects (Lazy.v). *)

From Coq Require Import String List ZArith Bool Lia.
From Verif Require Import Py Lazy.
Import ListNotations.
Open Scope Z_scope.

(** What reading attribute [g] of object [p] gives in state [s]. *)
Definition sees (s : state) (p : nat) (g : getter) : res out := fst (step s (Get p g)).

(** Attributes that are not summaries. *)
Definition plain (g : getter) : bool :=
  match g with GIds | GLen | GSos | GEos | GLens | GStarting | GEnding => true | _ => false end.

(** State after a history. *)
Definition after (s : state) (cs : list op) : state := snd (run s cs).

(** Objects that a source or an operation mentions. *)
Definition src_objs (x : src) : list nat := match x with New _ _ => [] | Alias q _ => [q] end.
Definition objs (c : op) : list nat :=
  match c with
  | Create _ a b l => src_objs a ++ src_objs b ++ src_objs l
  | Get p _ | Aug p _ _ _ | SetAt p _ _ | AugAt p _ _ _ | Clone p | Copy p | Slice p _ _ => [p]
  | Set_ p _ x => p :: src_objs x
  end.

(** Operations that change a tensor in place. *)
Definition in_place (c : op) : bool :=
  match c with Aug _ _ _ _ | SetAt _ _ _ | AugAt _ _ _ _ => true | _ => false end.

(** Assignments `p.lengths = ...`, `p.sos = ...`, `p.eos = ...`. *)
Definition assigns (p : nat) (c : op) : bool :=
  match c with Set_ q _ _ => Nat.eqb q p | _ => false end.

(** Two groups of objects: entry p of [sides] is the group of object p.  An operation of group [b] mentions
    only objects of group [b], and the object it creates (if any) joins group [b]. *)
Definition owned (sides : list bool) (b : bool) (c : op) : Prop :=
  forall p, In p (objs c) -> nth_error sides p = Some b.

Inductive grouped : list bool -> state -> list (bool * op) -> list bool -> state -> Prop :=
| grouped_nil sides s : grouped sides s [] sides s
| grouped_cons sides s b c cs sides' s' r s1 extra :
    owned sides b c ->
    step s c = (r, s1) ->
    (match r with Ok (ONew _) => extra = [b] | _ => extra = [] end) ->
    grouped (sides ++ extra) s1 cs sides' s' ->
    grouped sides s ((b, c) :: cs) sides' s'.

(** Storages mentioned by a proxy. *)
Definition otref (o : option tref) : list nat := match o with Some t => [t_base t] | None => [] end.
Definition reaches (p : proxy) : list nat :=
  match p with
  | Pending a => [t_base (a_sos a); t_base (a_eos a); t_base (a_lens a)]
  | Made o => otref (o_sos o) ++ otref (o_eos o) ++ otref (o_lens o)
  end.

(** Every tensor that occurs in the state exists. *)
Definition legal (s : state) : Prop :=
  forall p x, In p (st_prox s) -> In x (reaches p) -> (x < length (st_heap s))%nat.

(** The smallest and largest element of a list; "any" and "all". *)
Definition is_min (m : Z) (l : list Z) : Prop := In m l /\ forall x, In x l -> m <= x.
Definition is_max (m : Z) (l : list Z) : Prop := In m l /\ forall x, In x l -> x <= m.
Definition says (r : res out) (P : Prop) : Prop :=
  exists b, r = Ok (OBool b) /\ (b = true <-> P).

(** All summaries that object [p] reports in [s] agree with the lengths, sos and eos it reports. *)
Definition coherent (s : state) (p : nat) : Prop :=
  (forall l, sees s p GLens = Ok (OInts l) ->
     (l = [] -> sees s p GMin = Err RuntimeError /\ sees s p GMax = Err RuntimeError) /\
     (l <> [] -> exists mn mx, sees s p GMin = Ok (OInt mn) /\ sees s p GMax = Ok (OInt mx) /\
                               is_min mn l /\ is_max mx l)) /\
  (forall ss es, sees s p GSos = Ok (OBools ss) -> sees s p GEos = Ok (OBools es) ->
     says (sees s p GAnyStarting) (In true ss) /\
     says (sees s p GAnyEnding) (In true es) /\
     says (sees s p GAllStarting) (~ In false ss) /\
     says (sees s p GAllEnding) (~ In false es) /\
     says (sees s p GAnyStartingOrEnding) (In true ss \/ In true es) /\
     says (sees s p GAllStartingAndEnding) (~ In false ss /\ ~ In false es)).

(** Reads and assignments through the public setters of the single object [p]; a tensor assigned to lengths
    is not one that serves as sos or eos, and vice versa. *)
Definition is_lens (f : fld) : bool := match f with FLens => true | _ => false end.
Definition setter_op (p : nat) (c : op) : Prop :=
  match c with
  | Get q _ | Aug q _ _ _ => q = p
  | SetAt q f _ | AugAt q f _ _ => q = p /\ is_lens f = false
  | Set_ q f (New _ _) => q = p
  | Set_ q f (Alias q' f') => q = p /\ q' = p /\ is_lens f = is_lens f'
  | _ => False
  end.

(** States that a program can reach, starting without objects and tensors and mentioning only objects that
    exist. *)
Definition empty_state : state := mkSt [] [].
Definition reachable (s : state) : Prop :=
  exists cs sides, grouped [] empty_state (map (pair false) cs) sides s.

(** Group [false] are all objects of state [s], group [true] the next object to be created. *)
Definition only_next (s : state) : list bool := repeat false (length (st_prox s)) ++ [true].

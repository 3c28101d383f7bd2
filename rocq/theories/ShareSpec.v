(** Specification for C67: what the statements of Share.v compute when every tensor is a value of its own, and a rule that
    tells which variables a convolution spoils. *)

From Coq Require Import String List ZArith Bool Lia.
From Verif Require Import Py Meta Pad Conv Stack Share.
Import ListNotations.
Open Scope Z_scope.

Section ShareSpec.
Context {V : Type}.

(** Values of the variables and buffers of the modules. *)
Definition vstate : Type := (list (batch V) * list (buffers V))%type.

Definition get {A} (l : list A) (i : nat) : res A := match nth_error l i with Some a => Ok a | None => Err Undefined end.

(** Same width, same number of rows, equal metadata. *)
Definition zip_values (f : V -> V -> V) (x y : batch V) : res (batch V) :=
  if negb (Nat.eqb (bw x) (bw y) && Nat.eqb (length (bd x)) (length (bd y))) then Err RuntimeError
  else do b <- meta_eq (bm y) (bm x);
       if b then Ok (mkBatch (bw x) (map (fun q => map (fun u => f (fst u) (snd u)) (zip (fst q) (snd q))) (zip (bd x) (bd y))) (bm x))
       else Err RuntimeError.

(** One statement with values: nothing but the new variable and the buffers of the module changes. *)
Definition vstep (ms : list (conv_cfg V)) (s : vstate) (i : stmt V) : res vstate :=
  let '(xs, sts) := s in
  match i with
  | Map g v => do x <- get xs v; Ok (xs ++ [map_call g x], sts)
  | View v => do x <- get xs v; Ok (xs ++ [x], sts)
  | Read v => do x <- get xs v; Ok (xs, sts)
  | Conv k v =>
      do c <- get ms k;
      do x <- get xs v;
      do '(y, st) <- conv_call c (nth k sts no_buffers) x;
      Ok (xs ++ [y], list_set sts k st)
  | Zip f v w =>
      do x <- get xs v;
      do y <- get xs w;
      do z <- zip_values f x y;
      Ok (xs ++ [z], sts)
  end.

Fixpoint vrun (ms : list (conv_cfg V)) (s : vstate) (p : list (stmt V)) : res vstate :=
  match p with
  | [] => Ok s
  | i :: r => do s1 <- vstep ms s i; vrun ms s1 r
  end.

(** The variables that a statement uses. *)
Definition uses (i : stmt V) : list nat :=
  match i with
  | Map _ v | View v | Read v | Conv _ v => [v]
  | Zip _ v w => [v; w]
  end.

(** The convolution works on the metadata of its input: kernel of one column, or all streams start. *)
Definition in_place (c : conv_cfg V) (x : batch V) : bool := (kernel_width c <=? 1) || all_starting (bm x).

(** What is known of a variable: the family of variables that share its metadata, the family of which it is an unread view,
    and whether it is as it should be. *)
Record tag : Type := mkTag { t_fam : nat; t_src : option nat; t_ok : bool }.

Definition tag_of (ts : list tag) (v : nat) : tag := nth v ts (mkTag 0 None false).

Definition is_src (f : nat) (t : tag) : bool := match t_src t with Some g => Nat.eqb g f | None => false end.

(** Reading the metadata makes a view independent. *)
Definition settle (f : nat) (ts : list tag) : list tag :=
  map (fun t => if Nat.eqb (t_fam t) f then mkTag (t_fam t) None (t_ok t) else t) ts.

(** A convolution in place spoils the family of its input if the lengths change, and the unread views of that family if
    padding changes the lengths. *)
Definition spoil (f : nat) (changed padded : bool) (ts : list tag) : list tag :=
  map (fun t => if Nat.eqb (t_fam t) f then mkTag (t_fam t) (t_src t) (t_ok t && negb changed)
                else if is_src f t then mkTag (t_fam t) None (t_ok t && negb padded)
                else t) ts.

Definition same_lens (a b : list Z) : bool := list_eqb Z.eqb a b.

Definition tag_step (ms : list (conv_cfg V)) (s : vstate) (ts : list tag) (i : stmt V) : list tag :=
  let n := length ts in
  match i with
  | Map _ v => ts ++ [tag_of ts v]
  | View v => let f := t_fam (tag_of ts v) in settle f ts ++ [mkTag n (Some f) true]
  | Read v => settle (t_fam (tag_of ts v)) ts
  | Conv k v =>
      let f := t_fam (tag_of ts v) in
      let ts1 := settle f ts in
      match get ms k, get (fst s) v with
      | Ok c, Ok x =>
          if in_place c x then
            match conv_call c (nth k (snd s) no_buffers) x with
            | Ok (y, _) =>
                spoil f (negb (same_lens (lens (bm x)) (lens (bm y))))
                        ((0 <? padn c)%nat && negb (same_lens (lens (bm x)) (pad_lens (Z.of_nat (padn c)) (bm x)))) ts1
                ++ [mkTag f None true]
            | Err _ => ts1
            end
          else ts1 ++ [mkTag n None true]
      | _, _ => ts1
      end
  | Zip _ v w =>
      let ts1 := settle (t_fam (tag_of ts v)) (settle (t_fam (tag_of ts w)) ts) in
      ts1 ++ [tag_of ts1 v]
  end.

(** No statement uses a spoilt variable. *)
Fixpoint careful (ms : list (conv_cfg V)) (s : vstate) (ts : list tag) (p : list (stmt V)) : Prop :=
  match p with
  | [] => True
  | i :: r => Forall (fun v => t_ok (tag_of ts v) = true) (uses i) /\
              forall s1, vstep ms s i = Ok s1 -> careful ms s1 (tag_step ms s ts i) r
  end.

(** The variables that are as they should be after a program. *)
Fixpoint tags (ms : list (conv_cfg V)) (s : vstate) (ts : list tag) (p : list (stmt V)) : list tag :=
  match p with
  | [] => ts
  | i :: r => match vstep ms s i with
              | Ok s1 => tags ms s1 (tag_step ms s ts i) r
              | Err _ => ts
              end
  end.

(** The inputs: every one a family of its own. *)
Definition first_tags (xs : list (batch V)) : list tag := map (fun n => mkTag n None true) (seq 0 (length xs)).

(** Kernels of one column must not pad: their input could be changed in place (C33). *)
Definition ok_module (c : conv_cfg V) : Prop := 1 < kernel_width c \/ padn c = 0%nat.

(** A sequential model as a program on the last variable; convolutions are numbered in order. *)
Fixpoint chain (Ls : list (layer V)) (k v : nat) : list (stmt V) :=
  match Ls with
  | [] => []
  | LConv _ :: r => Conv k v :: chain r (S k) (S v)
  | LMap g :: r => Map g v :: chain r k (S v)
  end.

Fixpoint modules (Ls : list (layer V)) : list (conv_cfg V) :=
  match Ls with
  | [] => []
  | LConv c :: r => c :: modules r
  | LMap _ :: r => modules r
  end.

(** The buffers of the convolutions among the layers. *)
Fixpoint conv_bufs (Ls : list (layer V)) (sts : list (buffers V)) : list (buffers V) :=
  match Ls, sts with
  | LConv _ :: r, st :: sts' => st :: conv_bufs r sts'
  | LMap _ :: r, _ :: sts' => conv_bufs r sts'
  | _, _ => []
  end.

(** No convolution of the program is given a batch in which all streams start. *)
Fixpoint continuing (ms : list (conv_cfg V)) (s : vstate) (p : list (stmt V)) : Prop :=
  match p with
  | [] => True
  | i :: r => (forall k v x, i = Conv k v -> nth_error (fst s) v = Some x -> all_starting (bm x) = false) /\
              forall s1, vstep ms s i = Ok s1 -> continuing ms s1 r
  end.

End ShareSpec.

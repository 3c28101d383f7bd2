(** Networks that are not a chain: several modules applied to the same StreamTensor, at the level of metadata objects.

    A StreamTensor is a Python object with data and a reference to a StreamMetadata object. Most functions return a
    tensor with the very same metadata object (tensor.py 815-836, func_coverage.py): element-wise functions, clone, relu.
    Others return a clone, which copies the tensors of the original at its first use only (tensor.py 35-87, 310-319):
    squeeze, unsqueeze, index expressions and narrow along other dimensions. The convolution pads the lengths of its
    input in place and assigns the output lengths to the same object (overrides.py 217-223, 251), unless the pre-hook has
    made a new tensor (patches/conv.py 24-42).

    Objects and lengths tensors are numbered in the order of their creation. Ids and flags are never changed by these functions and are
    kept as values. Buffers are values (memory shared between buffers and chunks: Store.v). The caches of the object are
    left out: the setters mark them as out of date (C11). `_temp_buffer` (overrides.py 246) is set and consumed in the
    same call. Operands of different width that broadcast are an error here. *)

From Coq Require Import String List ZArith Bool Lia.
From Verif Require Import Py Meta Pad Conv.
Import ListNotations.
Open Scope Z_scope.

(** The lengths of a metadata object: its own tensor, or (lazy clone, not used yet: tensor.py 310-319) a tensor to be
    copied at the first use. *)
Inductive lref : Type :=
| Own (k : nat)
| Later (k : nat).

Record mobj : Type := mkO {
  o_ids : list string; o_sos : list bool; o_eos : list bool; o_chs : option (list Z); o_len : lref }.

Section Share.
Context {V : Type}.

(** A StreamTensor: its metadata object, its data and its width. *)
Record svar : Type := mkV { v_obj : nat; v_data : nat; v_w : nat }.

(** Lengths tensors, metadata objects, data tensors, Python variables, buffers of the modules. *)
Record state : Type := mkS {
  lcells : list (list Z);
  objs : list mobj;
  datas : list (list (list V));
  vars : list svar;
  bufs : list (buffers V) }.

(** One statement of a program; every statement assigns a new variable (the next number), except [Read].
    [Map g v]: an element-wise function, clone, rename ... of [v] (tensor.py 815-836).
    [View v]: a function that clones the metadata and keeps the columns ([v[...]], narrow and squeeze along other dimensions).
    [Read v]: any access to the metadata of [v].
    [Conv k v]: module number [k] applied to [v].
    [Zip f v w]: an element-wise function of two variables. *)
Inductive stmt : Type :=
| Map (g : V -> V) (v : nat)
| View (v : nat)
| Read (v : nat)
| Conv (k v : nat)
| Zip (f : V -> V -> V) (v w : nat).

Definition meta_at (s : state) (o : mobj) : meta :=
  mkMeta (o_ids o) (o_sos o) (o_eos o) (nth (match o_len o with Own k | Later k => k end) (lcells s) []) (o_chs o).

(** tensor.py 44-48, 85-87, 119-178: the first access builds the object, copying the lengths. *)
Definition touch (s : state) (o : nat) : state :=
  match nth_error (objs s) o with
  | Some (mkO i b e c (Later k)) =>
      mkS (lcells s ++ [nth k (lcells s) []]) (list_set (objs s) o (mkO i b e c (Own (length (lcells s)))))
          (datas s) (vars s) (bufs s)
  | _ => s
  end.

(** What the StreamTensor [x] shows when read. *)
Definition see (s : state) (x : svar) : batch V :=
  mkBatch (v_w x) (nth (v_data x) (datas s) []) (meta_at s (nth (v_obj x) (objs s) (mkO [] [] [] None (Own 0)))).

(** A variable that shares the metadata object [o]. *)
Definition bind_var (s : state) (o w : nat) (rows : list (list V)) : state :=
  mkS (lcells s) (objs s) (datas s ++ [rows]) (vars s ++ [mkV o (length (datas s)) w]) (bufs s).

(** A variable with a metadata object of its own. *)
Definition bind_new (s : state) (m : meta) (w : nat) (rows : list (list V)) : state :=
  mkS (lcells s ++ [lens m]) (objs s ++ [mkO (ids m) (sos m) (eos m) (chs m) (Own (length (lcells s)))])
      (datas s ++ [rows]) (vars s ++ [mkV (length (objs s)) (length (datas s)) w]) (bufs s).

Definition put_buf (s : state) (k : nat) (b : buffers V) : state :=
  mkS (lcells s) (objs s) (datas s) (vars s) (list_set (bufs s) k b).

(** In-place change of a lengths tensor (overrides.py 220-223). *)
Definition put_cell (s : state) (k : nat) (l : list Z) : state :=
  mkS (list_set (lcells s) k l) (objs s) (datas s) (vars s) (bufs s).

(** In-place change of the data (overrides.py 235). *)
Definition put_data (s : state) (d : nat) (rows : list (list V)) : state :=
  mkS (lcells s) (objs s) (list_set (datas s) d rows) (vars s) (bufs s).

(** Assignment of new lengths to an object (overrides.py 251; tensor.py 202-205). *)
Definition set_lengths (s : state) (o : nat) (l : list Z) : state :=
  match nth_error (objs s) o with
  | Some (mkO i b e c _) =>
      mkS (lcells s ++ [l]) (list_set (objs s) o (mkO i b e c (Own (length (lcells s))))) (datas s) (vars s) (bufs s)
  | None => s
  end.

(** The data of the input after the padding of overrides.py 225-236: rolled in place when neither the pre-hook nor F.pad
    made a new tensor. *)
Definition rolled (c : conv_cfg V) (x : batch V) : list (list V) :=
  let m1 := if (0 <? padn c)%nat then with_lens (bm x) (pad_lens (Z.of_nat (padn c)) (bm x)) else bm x in
  let padded := match max_length m1 with Ok mx => 0 <? mx - Z.of_nat (bw x) | Err _ => false end in
  if (0 <? padn c)%nat && negb (all_starting_and_ending m1) && negb padded && any_starting m1 && negb (all_starting m1)
  then map (fun p' : bool * list V => if fst p' then roll (padn c) (snd p') else snd p') (zip (sos m1) (bd x))
  else bd x.

(** overrides.py 193-256 and patches/conv.py 13-57 on the objects. An exception leaves the padded lengths behind. *)
Definition conv_stmt (c : conv_cfg V) (k : nat) (s0 : state) (xv : svar) : res unit * state :=
  let s := touch s0 (v_obj xv) in                                               (* conv.py 24 or overrides.py 219 *)
  let x := see s xv in
  let st := nth k (bufs s) no_buffers in
  if (1 <? kernel_width c) && negb (all_starting (bm x)) then
    match conv_call c st x with
    | Ok (y, st1) => (Ok tt, put_buf (bind_new s (bm y) (bw y) (bd y)) k st1)
    | Err e => (Err e, s)
    end
  else
    match o_len (nth (v_obj xv) (objs s) (mkO [] [] [] None (Own 0))) with
    | Later _ => (Err Undefined, s)                                            (* not after touch *)
    | Own l =>
        let s1 := if (0 <? padn c)%nat then put_cell s l (pad_lens (Z.of_nat (padn c)) (bm x)) else s in
        let s2 := put_data s1 (v_data xv) (rolled c x) in
        match conv1d c x with
        | Ok (y, tmp) =>
            (Ok tt, put_buf (bind_var (set_lengths s2 (v_obj xv) (lens (bm y))) (v_obj xv) (bw y) (bd y))
                            k (post_hook st (bm y) tmp))
        | Err e => (Err e, s2)
        end
    end.

(** tensor.py 815-836 with two StreamTensors: torch's function, comparison of the metadata, the first object. *)
Definition zip_stmt (f : V -> V -> V) (s : state) (xv yv : svar) : res unit * state :=
  let x := see s xv in
  let y := see s yv in
  if negb (Nat.eqb (v_w xv) (v_w yv) && Nat.eqb (length (bd x)) (length (bd y))) then (Err RuntimeError, s)
  else
    let s1 := touch (touch s (v_obj yv)) (v_obj xv) in
    match meta_eq (bm (see s1 yv)) (bm (see s1 xv)) with
    | Err e => (Err e, s1)
    | Ok false => (Err RuntimeError, s1)
    | Ok true =>
        (Ok tt, bind_var s1 (v_obj xv) (v_w xv)
                  (map (fun q => map (fun u => f (fst u) (snd u)) (zip (fst q) (snd q))) (zip (bd x) (bd y))))
    end.

(** One statement. *)
Definition step (ms : list (conv_cfg V)) (s : state) (i : stmt) : res unit * state :=
  match i with
  | Map g v =>
      match nth_error (vars s) v with
      | None => (Err Undefined, s)
      | Some x => (Ok tt, bind_var s (v_obj x) (v_w x) (map (map g) (bd (see s x))))
      end
  | View v =>
      match nth_error (vars s) v with
      | None => (Err Undefined, s)
      | Some x =>
          let s1 := touch s (v_obj x) in
          match nth_error (objs s1) (v_obj x) with
          | Some (mkO i b e c (Own l)) =>
              (Ok tt, mkS (lcells s1) (objs s1 ++ [mkO i b e c (Later l)]) (datas s1)
                          (vars s1 ++ [mkV (length (objs s1)) (v_data x) (v_w x)]) (bufs s1))
          | _ => (Err Undefined, s1)
          end
      end
  | Read v =>
      match nth_error (vars s) v with
      | None => (Err Undefined, s)
      | Some x => (Ok tt, touch s (v_obj x))
      end
  | Conv k v =>
      match nth_error ms k, nth_error (vars s) v with
      | Some c, Some x => conv_stmt c k s x
      | _, _ => (Err Undefined, s)
      end
  | Zip f v w =>
      match nth_error (vars s) v, nth_error (vars s) w with
      | Some x, Some y => zip_stmt f s x y
      | _, _ => (Err Undefined, s)
      end
  end.

(** A program runs until the first exception. *)
Fixpoint run (ms : list (conv_cfg V)) (s : state) (p : list stmt) : res unit * state :=
  match p with
  | [] => (Ok tt, s)
  | i :: r => match step ms s i with
              | (Ok _, s1) => run ms s1 r
              | (Err e, s1) => (Err e, s1)
              end
  end.

(** The inputs of a call of the network: separate tensors, each with its own metadata. *)
Definition inputs (sts : list (buffers V)) (xs : list (batch V)) : state :=
  fold_left (fun s x => bind_new s (bm x) (bw x) (bd x)) xs (mkS [] [] [] [] sts).

End Share.
Arguments svar : clear implicits.
Arguments state V : clear implicits.
Arguments stmt V : clear implicits.

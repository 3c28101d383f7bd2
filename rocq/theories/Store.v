(** Which tensors share memory in an online call of a patched Conv1d: dreamstream/patches/conv.py 13-57 and the conv1d
    override, dreamstream/overrides.py 193-256, on a store of tensors.

    Conv.v treats tensors as values. Here a tensor is a location in a store. torch.cat, torch.stack, pad_sequence and
    F.pad allocate; `input.decouple()` (tensor.py 880-885, 910-913) does not; `input[i, ..., start:end]` (overrides.py 245)
    is a view: it holds no data of its own. Simplifications as in Conv.v; the metadata objects are not on the store (C33);
    the output is a new tensor that no buffer refers to, so it is treated as a value. *)

From Coq Require Import String List ZArith Bool Lia.
From Verif Require Import Py Meta Pad Conv.
Import ListNotations.
Open Scope Z_scope.

(** A tensor of the caller, or one made during a call. *)
Inductive loc : Type := Mine (n : nat) | Ours (n : nat).

(** input[i, ..., start:end] of the tensor at a location (overrides.py 245). *)
Record view : Type := mkView { vloc : loc; vrow : nat; vfrom : Z; vto : Z }.

Section Store.
Context {V : Type}.

(** The rows of every tensor. *)
Record store : Type := mkStore { mine : nat -> list (list V); ours : list (list (list V)) }.

Definition at_loc (h : store) (l : loc) : list (list V) :=
  match l with Mine n => mine h n | Ours n => nth n (ours h) [] end.

(** An in-place change of all rows. *)
Definition put (h : store) (l : loc) (rows : list (list V)) : store :=
  match l with
  | Mine n => mkStore (fun k => if Nat.eqb k n then rows else mine h k) (ours h)
  | Ours n => mkStore (mine h) (firstn n (ours h) ++ rows :: skipn (S n) (ours h))
  end.

(** A new tensor. *)
Definition fresh (h : store) (rows : list (list V)) : loc * store :=
  (Ours (length (ours h)), mkStore (mine h) (ours h ++ [rows])).

(** What a view shows now. *)
Definition look (h : store) (v : view) : list V :=
  match row_slice (nth (vrow v) (at_loc h (vloc v)) []) (vfrom v) (vto v) with Ok l => l | Err _ => [] end.

(** module.stream_buffer (patches/conv.py 64): the entries are views. *)
Definition views : Type := string -> option view.
Definition no_views : views := fun _ => None.
Definition shown (h : store) (st : views) : buffers V := fun i => option_map (look h) (st i).

(** patches/conv.py 13-42 (conv_1d_pre_hook): torch.cat (34) and pad_stream_tensor (40) make a new tensor. *)
Definition s_pre_hook (c : conv_cfg V) (h : store) (st : views) (l : loc) (w : nat) (m : meta) : res (store * loc * nat * meta) :=
  if (1 <? kernel_width c) && negb (all_starting m) then
    do x1 <- pre_hook c (shown h st) (mkBatch w (at_loc h l) m);
    let '(l1, h1) := fresh h (bd x1) in
    Ok (h1, l1, bw x1, bm x1)
  else Ok (h, l, w, m).

(** overrides.py 225-236: F.pad makes a new tensor (231, 233); the roll (235) is in place. *)
Definition s_apply_padding (c : conv_cfg V) (m : meta) (h : store) (l : loc) (w : nat) : res (store * loc * nat) :=
  let p := padn c in
  do mx <- max_length m;
  let applied := mx - Z.of_nat w in
  do '(h1, l1, w1) <-
    (if 0 <? applied then
       let a := Z.to_nat applied in
       if all_starting m then
         if Z.of_nat p <=? applied
         then let '(l1, h1) := fresh h (map (fun r => repeat (zin c) p ++ r ++ repeat (zin c) (a - p)) (at_loc h l)) in
              Ok (h1, l1, (w + a)%nat)
         else Err AssertionError
       else let '(l1, h1) := fresh h (map (fun r => r ++ repeat (zin c) a) (at_loc h l)) in
            Ok (h1, l1, (w + a)%nat)
     else Ok (h, l, w));
  Ok (if any_starting m && negb (all_starting m)
      then put h1 l1 (map (fun p' : bool * list V => if fst p' then roll p (snd p') else snd p') (zip (sos m) (at_loc h1 l1)))
      else h1, l1, w1).

(** overrides.py 241-246: views of the rows that do not end. *)
Definition s_temp_buffer (c : conv_cfg V) (m : meta) (ol : list Z) (l : loc) : list (string * view) :=
  if (1 <? kernel_width c) && negb (all_ending m) then
    List.concat (map (fun q => let '(k, (o, n, i, e)) := q in
                        if e : bool then [] else [(i, mkView l k (o * Z.of_nat (strd c)) n)])
                     (zip (seq 0 (length (ids m))) (zip (zip (zip ol (lens m)) (ids m)) (eos m))))
  else [].

(** overrides.py 193-256 (conv1d). *)
Definition s_conv1d (c : conv_cfg V) (h : store) (l : loc) (w : nat) (m : meta) : res (batch V * list (string * view) * store) :=
  let p := padn c in
  let m1 := if (0 <? p)%nat then with_lens m (pad_lens (Z.of_nat p) m) else m in
  do '(h1, l1, w1, np) <-
    (if (0 <? p)%nat && negb (all_starting_and_ending m1)
     then do '(h1, l1, w1) <- s_apply_padding c m1 h l w; Ok (h1, l1, w1, 0%nat)
     else Ok (h, l, w, p));
  let ol := map (output_length c) (lens m1) in
  let tmp := s_temp_buffer c m1 ol l1 in
  do '(wo, out) <- torch_conv1d c np w1 (at_loc h1 l1);
  do mask <- sequence_mask ol (Some (Z.of_nat wo)) false;
  let out' := map (fun q => map (fun u : bool * V => if fst u then snd u else zout c) (zip (fst q) (snd q))) (zip mask out) in
  Ok (mkBatch wo out' (with_lens m1 ol), tmp, h1).

(** patches/conv.py 45-57 (conv_1d_post_hook). *)
Definition set_view (st : views) (q : string * view) : views := fun i => if String.eqb i (fst q) then Some (snd q) else st i.
Definition del_view (st : views) (j : string) : views := fun i => if String.eqb i j then None else st i.
Definition s_post_hook (st : views) (m : meta) (tmp : list (string * view)) : views :=
  fold_left (fun s (q : string * bool) => if snd q then del_view s (fst q) else s) (zip (ids m) (eos m)) (fold_left set_view tmp st).

(** One online call on the caller's tensor [n], of width [w] and with metadata [m]. *)
Definition s_call (c : conv_cfg V) (h : store) (st : views) (n w : nat) (m : meta) : res (batch V * views * store) :=
  do '(h1, l1, w1, m1) <- s_pre_hook c h st (Mine n) w m;
  do '(y, tmp, h2) <- s_conv1d c h1 l1 w1 m1;
  Ok (y, s_post_hook st (bm y) tmp, h2).

(** What a caller does: fill a tensor of their own (also an old one), or call the module on one. *)
Inductive event : Type :=
| Write (n : nat) (rows : list (list V))
| Call (n w : nat) (m : meta).

Fixpoint s_run (c : conv_cfg V) (h : store) (st : views) (es : list event) : res (list (batch V) * views * store) :=
  match es with
  | [] => Ok ([], st, h)
  | Write n rows :: r => s_run c (put h (Mine n) rows) st r
  | Call n w m :: r =>
      do '(y, st1, h1) <- s_call c h st n w m;
      do '(ys, st2, h2) <- s_run c h1 st1 r;
      Ok (y :: ys, st2, h2)
  end.

End Store.
Arguments store V : clear implicits.
Arguments event V : clear implicits.

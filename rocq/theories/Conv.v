(** Model of streaming 1-D convolutions: dreamstream/patches/conv.py and the conv1d override,
    dreamstream/overrides.py 193-256.

    Layout of a batch: (B, F, L), as the code requires (`x.size(-1)`, `dim=-1`). A column is an element of [V].
    Simplifications:
    - the numerical kernel is an arbitrary function [kfun] of the list of the [ksize] columns it reads (weight, bias
      and groups are inside it); floating point rounding is not modelled;
    - `output *= mask` sets masked columns to the zero column [zout] (true unless the output is inf/nan);
    - padding is the integer padding[0] ("valid" is 0; "same" raises NotImplementedError, 205-206, not modelled);
      padding_mode is "zeros";
    - the buffers of a module are a map from ids to lists of columns. *)

From Coq Require Import String List ZArith Bool Lia.
From Verif Require Import Py Meta Pad.
Import ListNotations.
Open Scope Z_scope.

Section Conv.
Context {V : Type}.

(** Parameters of an nn.Conv1d. *)
Record conv_cfg : Type := mkCfg {
  ksize : nat;               (* kernel_size[0] *)
  dilat : nat;               (* dilation[0] *)
  strd : nat;                (* stride[0] *)
  padn : nat;                (* padding[0] *)
  kfun : list V -> V;        (* one output column from ksize input columns *)
  zin : V;                   (* zero input column *)
  zout : V                   (* zero output column *)
}.

(** patches/conv.py 67 and overrides.py 214 (kernel_width). *)
Definition kernel_width (c : conv_cfg) : Z :=
  Z.of_nat (ksize c) + (Z.of_nat (ksize c) - 1) * (Z.of_nat (dilat c) - 1).

(** module.stream_buffer (patches/conv.py 64). *)
Definition buffers : Type := string -> option (list V).
Definition no_buffers : buffers := fun _ => None.

(** torch.conv1d on a plain tensor with [np] columns of native zero padding on both sides (overrides.py 249;
    also the unpatched module): RuntimeError if the kernel does not fit. *)
Definition torch_conv_row (c : conv_cfg) (n : nat) (r : list V) : list V :=
  map (fun i => kfun c (map (fun j => nth (i * strd c + j * dilat c) r (zin c)) (seq 0 (ksize c)))) (seq 0 n).

Definition torch_conv1d (c : conv_cfg) (np : nat) (w : nat) (rows : list (list V)) : res (nat * list (list V)) :=
  let W := Z.of_nat (w + 2 * np) in
  let eff := Z.of_nat (dilat c) * (Z.of_nat (ksize c) - 1) + 1 in
  if W <? eff then Err RuntimeError
  else
    let n := Z.to_nat ((W - eff) / Z.of_nat (strd c) + 1) in
    Ok (n, map (fun r => torch_conv_row c n (repeat (zin c) np ++ r ++ repeat (zin c) np)) rows).

(** patches/conv.py 26-27: buffers of the streams of the batch and their lengths. *)
Definition buffer_data (st : buffers) (m : meta) : list (option (list V)) := map st (ids m).
Definition buffer_len (o : option (list V)) : Z := match o with None => 0 | Some b => zlen b end.

(** patches/conv.py 33: torch.stack of a list that contains None raises TypeError. *)
Definition stack_buffers (bs : list (option (list V))) : res (list (list V)) :=
  match all_some bs with Some l => Ok l | None => Err TypeError end.

Definition with_lens (m : meta) (l : list Z) : meta := mkMeta (ids m) (sos m) (eos m) l (chs m).

(** patches/conv.py 34, via overrides.cat (overrides.py 73-81): the buffers (a plain tensor of width [n]) are
    put in front of every row; the metadata is a clone with all lengths increased by [n]. *)
Definition cat_front (bs : list (list V)) (n : nat) (x : batch V) : res (batch V) :=
  if Nat.eqb (length bs) (length (bd x))
  then Ok (mkBatch (n + bw x) (map (fun p => fst p ++ snd p) (zip bs (bd x)))
                   (with_lens (bm x) (map (fun l => l + Z.of_nat n) (lens (bm x)))))
  else Err RuntimeError.

(** patches/conv.py 39: [x if b is None else torch.cat([b, x], dim=-1) for x, b in zip(input, buffer_data)]. *)
Definition cat_single (p : single V * option (list V)) : single V :=
  match snd p with
  | None => fst p
  | Some b => mkSingle (b ++ sd (fst p))
                (with_lens (sm (fst p)) (map (fun l => l + zlen b) (lens (sm (fst p)))))
  end.

(** patches/conv.py 13-42 (conv_1d_pre_hook) in streaming mode for a StreamTensor (the other combinations:
    Modes.v). *)
Definition pre_hook (c : conv_cfg) (st : buffers) (x : batch V) : res (batch V) :=
  if (1 <? kernel_width c) && negb (all_starting (bm x)) then
    let bs := buffer_data st (bm x) in
    let bl := map buffer_len bs in
    match bl with
    | [] => Err RuntimeError                                  (* 28: min() of an empty tensor *)
    | r :: _ =>
        if forallb (fun n => n =? r) bl
        then do bs' <- stack_buffers bs; cat_front bs' (Z.to_nat r) x
        else
          do xs <- unpad_sequence x;
          pad_stream_tensor (zin c) (map cat_single (zip xs bs))
    end
  else Ok x.

(** meta.starting_lengths += k, meta.ending_lengths += k (tensor.py 241-257). *)
Definition add_where (flags : list bool) (k : Z) (l : list Z) : list Z :=
  map (fun p : bool * Z => if fst p then snd p + k else snd p) (zip flags l).

(** overrides.py 219-223: lengths after padding. *)
Definition pad_lens (p : Z) (m : meta) : list Z :=
  if all_starting_and_ending m then map (fun n => n + p * 2) (lens m)
  else if any_starting_or_ending m then add_where (eos m) p (add_where (sos m) p (lens m))
  else lens m.

(** torch.roll(t, shifts=p, dims=-1) on one row (overrides.py 235). *)
Definition roll (p : nat) (r : list V) : list V :=
  let n := length r in
  let k := (p mod n)%nat in
  skipn (n - k) r ++ firstn (n - k) r.

(** overrides.py 225-236: explicit padding of the tensor; [m] has the padded lengths. *)
Definition apply_padding (c : conv_cfg) (m : meta) (w : nat) (rows : list (list V)) : res (nat * list (list V)) :=
  let p := padn c in
  do mx <- max_length m;
  let applied := mx - Z.of_nat w in
  do '(w1, rows1) <-
    (if 0 <? applied then
       let a := Z.to_nat applied in
       if all_starting m then
         if Z.of_nat p <=? applied
         then Ok ((w + a)%nat, map (fun r => repeat (zin c) p ++ r ++ repeat (zin c) (a - p)) rows)
         else Err AssertionError
       else Ok ((w + a)%nat, map (fun r => r ++ repeat (zin c) a) rows)
     else Ok (w, rows));
  Ok (w1, if any_starting m && negb (all_starting m)
          then map (fun p' : bool * list V => if fst p' then roll p (snd p') else snd p') (zip (sos m) rows1)
          else rows1).

(** overrides.py 239 (output_lengths). *)
Definition output_length (c : conv_cfg) (n : Z) : Z :=
  Z.max 0 ((n - kernel_width c) / Z.of_nat (strd c) + 1).

(** input[i, ..., start:end] (overrides.py 245) with Python's slice rule. *)
Definition row_slice (r : list V) (start stop : Z) : res (list V) :=
  tensor_slice r (mkSlice (Some start) (Some stop) None).

(** overrides.py 241-246: buffers of the rows that do not end, in row order. *)
Definition temp_buffer (c : conv_cfg) (m : meta) (ol : list Z) (rows : list (list V)) : res (list (string * list V)) :=
  if (1 <? kernel_width c) && negb (all_ending m) then
    do bs <- mapM (fun q => let '(o, n, i, e, r) := q in
                     if e : bool then Ok []
                     else do b <- row_slice r (o * Z.of_nat (strd c)) n; Ok [(i, b)])
                  (zip (zip (zip (zip ol (lens m)) (ids m)) (eos m)) rows);
    Ok (List.concat bs)
  else Ok [].

(** overrides.py 193-256 (conv1d): the output, and the buffer handed to the post-hook. *)
Definition conv1d (c : conv_cfg) (x : batch V) : res (batch V * list (string * list V)) :=
  let p := padn c in
  let m0 := bm x in
  let m1 := if (0 <? p)%nat then with_lens m0 (pad_lens (Z.of_nat p) m0) else m0 in
  do '(w1, rows1, np) <-
    (if (0 <? p)%nat && negb (all_starting_and_ending m1)
     then do '(w1, rows1) <- apply_padding c m1 (bw x) (bd x); Ok (w1, rows1, 0%nat)
     else Ok (bw x, bd x, p));
  let ol := map (output_length c) (lens m1) in
  do tmp <- temp_buffer c m1 ol rows1;
  do '(wo, out) <- torch_conv1d c np w1 rows1;
  do mask <- sequence_mask ol (Some (Z.of_nat wo)) false;                   (* 254 *)
  let out' := map (fun q => map (fun u : bool * V => if fst u then snd u else zout c) (zip (fst q) (snd q))) (zip mask out) in
  Ok (mkBatch wo out' (with_lens m1 ol), tmp).

(** dict.update (patches/conv.py 48). *)
Definition set_buffer (st : buffers) (q : string * list V) : buffers :=
  fun i => if String.eqb i (fst q) then Some (snd q) else st i.
Definition del_buffer (st : buffers) (j : string) : buffers :=
  fun i => if String.eqb i j then None else st i.

(** patches/conv.py 45-57 (conv_1d_post_hook) in streaming mode. *)
Definition post_hook (st : buffers) (m : meta) (tmp : list (string * list V)) : buffers :=
  let st1 := fold_left set_buffer tmp st in
  fold_left (fun s (q : string * bool) => if snd q then del_buffer s (fst q) else s) (zip (ids m) (eos m)) st1.

(** One online call of a patched Conv1d on a StreamTensor: output and new buffers. *)
Definition conv_call (c : conv_cfg) (st : buffers) (x : batch V) : res (batch V * buffers) :=
  do x1 <- pre_hook c st x;
  do '(y, tmp) <- conv1d c x1;
  Ok (y, post_hook st (bm y) tmp).

(** A sequence of online calls. *)
Fixpoint conv_run (c : conv_cfg) (st : buffers) (xs : list (batch V)) : res (list (batch V) * buffers) :=
  match xs with
  | [] => Ok ([], st)
  | x :: t => do '(y, st1) <- conv_call c st x;
              do '(ys, st2) <- conv_run c st1 t;
              Ok (y :: ys, st2)
  end.

(** A plain tensor (rows of common width) or a StreamTensor. *)
Inductive tensor_in : Type :=
| Plain (w : nat) (rows : list (list V))
| Stream (x : batch V).

(** The input StreamTensor after an online call that succeeded. The metadata object is shared with the output
    unless the pre-hook built a new tensor (tensor.py 910-913: decouple does not copy); the data is rolled in place
    (overrides.py 234-235) when neither the pre-hook nor F.pad made a new tensor. *)
Definition input_after (c : conv_cfg) (st : buffers) (x : batch V) : res (batch V) :=
  do x1 <- pre_hook c st x;
  do '(y, _) <- conv1d c x1;
  if (1 <? kernel_width c) && negb (all_starting (bm x)) then Ok x
  else
    let m1 := if (0 <? padn c)%nat then with_lens (bm x) (pad_lens (Z.of_nat (padn c)) (bm x)) else bm x in
    let padded := match max_length m1 with Ok mx => 0 <? mx - Z.of_nat (bw x) | Err _ => false end in
    let inplace := (0 <? padn c)%nat && negb (all_starting_and_ending m1) && negb padded
                   && any_starting m1 && negb (all_starting m1) in
    Ok (mkBatch (bw x)
          (if inplace then map (fun p' : bool * list V => if fst p' then roll (padn c) (snd p') else snd p') (zip (sos m1) (bd x))
           else bd x)
          (bm y)).

End Conv.
Arguments conv_cfg V : clear implicits.
Arguments buffers V : clear implicits.
Arguments tensor_in V : clear implicits.

(** Model of padding on tensors of any rank: concatenate_ragged (dreamstream/data/stream_dataset.py 64-77), pad_chunks and
    pad_stream_tensor (dreamstream/nn/utils/pad_sequence.py 10-55), unpad_sequence (tensor.py 902-908). Pad.v and Data.v model the same functions on rows of
    columns, without the order of dimensions and without sizes of the other dimensions; here the tensors are those of
    Named.v.

    Simplifications: dtypes (the result has the dtype of the first tensor), devices and memory sharing. *)

From Coq Require Import String List ZArith Bool Lia.
From Verif Require Import Py Meta Named.
From Verif Require Pad.
Import ListNotations.
Open Scope Z_scope.

Section Ragged.
Context {V : Type}.
Notation tensor := (@tensor V).
Notation stensor := (@stensor V).

(** Tensor.transpose of a plain tensor without names; a tensor without dimensions accepts the dimensions -1 and 0
    (torch's maybe_wrap_dim) and is returned as it is. Library code. *)
Definition plain_transpose (t : tensor) (d0 d1 : Z) : res tensor :=
  match ndim t with
  | O => do _ <- norm_dim 1 d0; do _ <- norm_dim 1 d1; Ok t
  | nd => do a <- norm_dim nd d0; do b <- norm_dim nd d1; torch_permute t (swap_dims nd a b)
  end.

(** Tensor.copy_ broadcasts its source: sizes are compared from the last dimension on, and a source dimension must be
    missing, of size 1 or of the size of the target. Library code. *)
Definition copy_fits (s target : list Z) : bool :=
  Nat.leb (length s) (length target) &&
  forallb (fun nm => (fst nm =? snd nm) || (fst nm =? 1)) (combine s (skipn (length target - length s) target)).

(** The element of the source that is copied to position [ix] of the target. *)
Definition copy_source (s ix : list Z) : list Z :=
  map (fun ni => if fst ni =? 1 then 0 else snd ni) (combine s (skipn (length ix - length s) ix)).

Definition first_size (t : tensor) : Z := size t 0.
Definition longest (t0 : tensor) (l : list tensor) : Z := fold_left Z.max (map first_size l) (first_size t0).

(** torch.nn.utils.rnn.pad_sequence: a tensor filled with [z], of sizes (number of tensors, longest first dimension,
    further dimensions of the FIRST tensor), or with the first two exchanged if not batch_first; then for each tensor
    out[i, :length_i] (out[:length_i, i]) .copy_(tensor). An empty list is a RuntimeError, a tensor without dimensions an
    IndexError (`size(0)`); if it is the first one, the error depends on the version of torch ([Undefined]).
    Library code (aten/src/ATen/native/PackedSequence.cpp). *)
Definition pad_tensors (z : V) (batch_first : bool) (l : list tensor) : res tensor :=
  match l with
  | [] => Err RuntimeError
  | t0 :: r =>
      if Nat.eqb (ndim t0) 0 then Err Undefined
      else if existsb (fun t => Nat.eqb (ndim t) 0) l then Err IndexError
      else if forallb (fun t => copy_fits (shp t) (first_size t :: tl (shp t0))) l then
        let lead := if batch_first then [zlen l; longest t0 r] else [longest t0 r; zlen l] in
        Ok (mkTn (lead ++ tl (shp t0))
              (fun ix =>
                 match ix with
                 | i :: j :: rest =>
                     let b := if batch_first then i else j in
                     let p := if batch_first then j else i in
                     match nth_error l (Z.to_nat b) with
                     | Some t => if p <? first_size t then at_ t (copy_source (shp t) (p :: rest)) else z
                     | None => z
                     end
                 | _ => z
                 end))
      else Err RuntimeError
  end.

(** stream_dataset.py 64-77 (concatenate_ragged). *)
Definition concatenate_ragged (z : V) (batch : list tensor) (dim : Z) : res tensor :=
  do d <- (if 0 <=? dim then Ok dim
           else do t0 <- py_getitem batch 0; Ok (Z.of_nat (ndim t0) + dim));        (* 71 *)
  do ts <- mapM (fun b => plain_transpose b d 0) batch;                              (* 74 *)
  do r <- pad_tensors z true ts;                                                     (* 75 *)
  plain_transpose r (d + 1) 1.                                                       (* 76 *)

(** pad_sequence.py 10-39 (pad_chunks); [names] is the argument, not the names of the tensors. The number of ids and flags
    is checked here; in the code when the metadata is first used (Lazy.v). *)
Definition pad_chunks_t (z : V) (sequences : list tensor) (nms : list dname) (i : list string) (s e : list bool)
    (batch_first : bool) : res stensor :=
  if names_mem (Some BATCH) nms then Err ValueError                              (* 22-23 *)
  else
    do k <- names_index (Some LENGTH) nms;                                           (* 24-27 *)
    let order := k :: filter (fun d => negb (Nat.eqb d k)) (seq 0 (length nms)) in
    do ss <- (if Nat.eqb k 0 then Ok sequences                                       (* 28 *)
              else mapM (fun t => torch_permute t order) sequences);                 (* 29-30 *)
    let prefix := if batch_first then [Some BATCH; Some LENGTH] else [Some LENGTH; Some BATCH] in   (* 32 *)
    let nn := prefix ++ filter (fun a => negb (dname_eqb a (Some LENGTH))) nms in                   (* 33 *)
    do ls <- mapM (fun t => if Nat.eqb (ndim t) 0 then Err IndexError else Ok (first_size t)) ss;   (* 34 *)
    do t <- pad_tensors z batch_first ss;                                            (* 35 *)
    do rn <- rename (ndim t) nn;                                                     (* 36 *)
    do m <- make_meta i s e ls None;                                                 (* 38 *)
    Ok (mkSt t rn m).                                                                (* 39 *)

(** pad_sequence.py 42-45 (pad_full_sequence). *)
Definition pad_full_sequence_t (z : V) (sequences : list tensor) (nms : list dname) (i : list string)
    (batch_first : bool) : res stensor :=
  pad_chunks_t z sequences nms i (repeat true (length sequences)) (repeat true (length sequences)) batch_first.

(** pad_sequence.py 48-55 (pad_stream_tensor). *)
Definition pad_stream_tensor_t (z : V) (xs : list stensor) (batch_first : bool) : res stensor :=
  do m <- cat_batch (map smeta xs);                                                  (* 49 *)
  do x0 <- py_getitem xs 0;                                                          (* 50 *)
  pad_chunks_t z (map tn xs) (names x0) (ids m) (sos m) (eos m) batch_first.         (* 51-55 *)

(** tensor.py 902-908 (unpad_sequence). *)
Definition unpad_sequence_t (x : stensor) : res (list stensor) :=
  do b <- names_index (Some BATCH) (names x);                                        (* 904 *)
  do l <- names_index (Some LENGTH) (names x);                                       (* 905 *)
  let l := if Nat.ltb b l then pred l else l in                                      (* 906-907 *)
  do ys <- unbind x (Z.of_nat b);                                                    (* 908 *)
  mapM (fun y => do n <- Pad.the_length (smeta y); narrow y (Z.of_nat l) 0 n) ys.

End Ragged.

(** Model of a streaming nn.Conv1d on tensors with weights: dreamstream/patches/conv.py 13-57 and the conv1d override,
    dreamstream/overrides.py 193-256.  Conv.v models the same code on rows of columns with an arbitrary function for the
    kernel; here the tensors are those of Named.v, with names, channels, groups, weight and bias.

    Simplifications:
    - the sum of products of torch.conv1d is an arbitrary function [dot] of the bias and of the list of pairs
      (weight, input value), so nothing is assumed about rounding or the order of summation;
    - `output *= mask` is an arbitrary function [times_mask]; theorems assume that True leaves a value and False gives zero
      (not so for inf and nan);
    - torch.conv1d is modelled for inputs of three dimensions. A StreamTensor of two dimensions (no batch dimension) always
      fails, at the latest at `output *= mask.unsqueeze(1)` (RuntimeError), and so it does here; the same for other ranks;
    - views and in-place changes: Store.v and Share.v; dtypes, devices and gradients are left out. *)

From Coq Require Import String List ZArith Bool Lia.
From Verif Require Import Py Meta Named Ragged.
From Verif Require Pad.
Import ListNotations.
Open Scope Z_scope.

Section ConvTensor.
Context {V : Type}.
Notation tensor := (@tensor V).
Notation stensor := (@stensor V).

(** Arithmetic. *)
Record arith : Type := mkArith {
  zero : V;
  times_mask : V -> bool -> V;
  dot : option V -> list (V * V) -> V
}.

(** An int argument or a tuple. nn.Conv1d passes tuples of one element. *)
Inductive int_arg : Type := AInt (n : Z) | ATuple (l : list Z).
Inductive pad_arg : Type := PSame | PValid | PNum (a : int_arg).

(** The arguments of torch.conv1d apart from the input. *)
Record conv_args : Type := mkArgs {
  weight : tensor;                       (* (out channels, in channels / groups, kernel size) *)
  bias : option tensor;                  (* (out channels) *)
  stride : int_arg;
  padding : pad_arg;
  dilation : int_arg;
  groups : Z
}.

(** a[0]: an int is not subscriptable. *)
Definition first_of (a : int_arg) : res Z :=
  match a with AInt _ => Err TypeError | ATuple [] => Err IndexError | ATuple (n :: _) => Ok n end.

(** A parameter of torch.conv1d itself: an int, or one element. *)
Definition single_of (a : int_arg) : res Z :=
  match a with AInt n | ATuple [n] => Ok n | ATuple _ => Err RuntimeError end.

(** The value of a tensor of sizes (n, c, w) at position p of its last dimension, zero outside. *)
Definition at_padded (A : arith) (t : tensor) (w b c p : Z) : V :=
  if (0 <=? p) && (p <? w) then at_ t [b; c; p] else zero A.

(** torch.conv1d of a plain tensor. Output channel [o] belongs to group o / (out / groups) and reads the input channels of that
    group. Library code. *)
Definition torch_conv1d_t (A : arith) (t : tensor) (k : conv_args) (p : Z) : res tensor :=
  do s <- single_of (stride k);
  do d <- single_of (dilation k);
  match shp t, shp (weight k) with
  | [n; c; w], [o; cg; ks] =>
      if (groups k <=? 0) || (s <=? 0) || (p <? 0) || (d <=? 0) then Err RuntimeError
      else if negb (o mod groups k =? 0) || negb (c =? cg * groups k) || (o <? groups k) then Err RuntimeError
      else if match bias k with Some b => negb (list_eqb Z.eqb (shp b) [o]) | None => false end then Err RuntimeError
      else
        let span := d * (ks - 1) + 1 in
        if w + 2 * p <? span then Err RuntimeError
        else
          let per := o / groups k in
          Ok (mkTn [n; o; (w + 2 * p - span) / s + 1]
               (fun ix =>
                  let b := nth 0 ix 0 in
                  let j := nth 1 ix 0 in
                  let i := nth 2 ix 0 in
                  dot A (match bias k with Some v => Some (at_ v [j]) | None => None end)
                    (flat_map (fun ci => map (fun kk => (at_ (weight k) [j; ci; kk], at_padded A t w b (j / per * cg + ci) (i * s + kk * d - p)))
                                             (dim_positions ks))
                              (dim_positions cg))))
  | _, _ => Err RuntimeError
  end.

(** F.pad(input, (l, r)) with zeros: the last dimension. Library code. *)
Definition pad_last (A : arith) (t : tensor) (l r : Z) : tensor :=
  let d := pred (ndim t) in
  mkTn (list_set (shp t) d (l + size t d + r))
       (fun ix => let p := nth d ix 0 in
                  if (l <=? p) && (p <? l + size t d) then at_ t (list_set ix d (p - l)) else zero A).

(** overrides.py 235: input[sos] = torch.roll(input[sos], shifts=p, dims=-1). *)
Definition roll_rows (t : tensor) (s : list bool) (p : Z) : res tensor :=
  if Nat.eqb (ndim t) 0 || negb (zlen s =? size t 0) then Err IndexError
  else
    let d := pred (ndim t) in
    Ok (mkTn (shp t)
         (fun ix => if nth (Z.to_nat (nth 0 ix 0)) s false
                    then at_ t (list_set ix d ((nth d ix 0 - p) mod size t d)) else at_ t ix)).

(** overrides.py 204-211. *)
Definition int_padding (a : pad_arg) : res Z :=
  do p <- match a with
          | PSame => Err NotImplementedError
          | PValid => Ok 0
          | PNum (AInt n) => Ok n
          | PNum (ATuple []) => Err IndexError
          | PNum (ATuple (n :: _)) => Ok n
          end;
  if p <? 0 then Err AssertionError else Ok p.

(** overrides.py 214: weight.shape[2] + (weight.shape[2] - 1) * (dilation[0] - 1). *)
Definition width_of (ks d : Z) : Z := ks + (ks - 1) * (d - 1).

(** overrides.py 217-223: the lengths, where `meta.starting_lengths += p` changes the lengths of the rows that start
    (tensor.py 241-257). *)
Definition padded_lengths (p : Z) (m : meta) : list Z :=
  let add fl l := map (fun q : bool * Z => if fst q then snd q + p else snd q) (zip fl l) in
  if all_starting_and_ending m then map (fun n => n + p * 2) (lens m)
  else if any_starting_or_ending m then add (eos m) (add (sos m) (lens m))
  else lens m.

Definition set_lengths (m : meta) (l : list Z) : meta := mkMeta (ids m) (sos m) (eos m) l (chs m).

(** overrides.py 226-235; [m] has the padded lengths. input.size(-1) of a tensor without dimensions is an IndexError. *)
Definition pad_input (A : arith) (p : Z) (m : meta) (t : tensor) : res tensor :=
  do mx <- max_length m;
  if Nat.eqb (ndim t) 0 then Err IndexError
  else
    let applied := mx - size t (pred (ndim t)) in
    do t1 <- (if 0 <? applied then
                if all_starting m
                then if p <=? applied then Ok (pad_last A t p (applied - p)) else Err AssertionError     (* 229-231 *)
                else Ok (pad_last A t 0 applied)                                                         (* 233 *)
              else Ok t);
    if any_starting m && negb (all_starting m) then roll_rows t1 (sos m) p else Ok t1.                   (* 234-235 *)

(** overrides.py 239: ((lengths - kernel_width) // stride + 1).clip(min=0). Division by a zero stride is a RuntimeError of torch for
    integer tensors. *)
Definition out_lengths (kw s : Z) (l : list Z) : res (list Z) :=
  if s =? 0 then Err RuntimeError else Ok (map (fun n => Z.max 0 ((n - kw) / s + 1)) l).

(** overrides.py 241-247: what the rows that do not end leave for the next call, [i] counts the rows. *)
Fixpoint new_buffers (s : Z) (t : tensor) (i : Z) (rows : list (Z * Z * string * bool)) : res (list (string * tensor)) :=
  match rows with
  | [] => Ok []
  | (o, n, id, e) :: r =>
      do b <- (if e then Ok []
               else do u <- torch_getitem t (Tuple [IInt i; IEll; ISlice (mkSlice (Some (o * s)) (Some n) None)]); Ok [(id, u)]);
      do rest <- new_buffers s t (i + 1) r;
      Ok (b ++ rest)
  end.

(** overrides.py 253-255: output *= mask.unsqueeze(1), where mask has a row per stream; the product must have the sizes of the
    output. *)
Definition mask_output (A : arith) (t : tensor) (mask : list (list bool)) : res tensor :=
  match shp t with
  | [n; o; w] =>
      if (zlen mask =? n) || (zlen mask =? 1)
      then Ok (mkTn (shp t)
                (fun ix => let r := if zlen mask =? 1 then 0 else nth 0 ix 0 in
                           times_mask A (at_ t ix) (nth (Z.to_nat (nth 2 ix 0)) (nth (Z.to_nat r) mask []) false)))
      else Err RuntimeError
  | _ => Err RuntimeError
  end.

(** overrides.py 193-256 (conv1d): the output and meta._temp_buffer. *)
Definition conv1d_t (A : arith) (k : conv_args) (x : stensor) : res (stensor * list (string * tensor)) :=
  do p <- int_padding (padding k);                                                    (* 203-211 *)
  do ks <- (match nth_error (shp (weight k)) 2 with Some n => Ok n | None => Err IndexError end);
  do d <- first_of (dilation k);
  let kw := width_of ks d in                                                          (* 214 *)
  let m0 := smeta x in
  let m := if 0 <? p then set_lengths m0 (padded_lengths p m0) else m0 in             (* 217-223 *)
  do '(t, p') <- (if (0 <? p) && negb (all_starting_and_ending m)
                  then do t <- pad_input A p m (tn x); Ok (t, 0)                      (* 225-236 *)
                  else Ok (tn x, p));
  do s <- first_of (stride k);
  do ol <- out_lengths kw s (lens m);                                                 (* 239-240 *)
  do tmp <- (if (1 <? kw) && negb (all_ending m)
             then new_buffers s t 0 (zip (zip (zip ol (lens m)) (ids m)) (eos m)) else Ok []);      (* 241-246 *)
  do out <- torch_conv1d_t A t k p';                                                  (* 249 *)
  do nn <- rename (ndim out) (names x);                                               (* 250 *)
  do mask <- Pad.sequence_mask ol (Some (size out 2)) false;                          (* 254 *)
  do out' <- mask_output A out mask;                                                  (* 255 *)
  Ok (mkSt out' nn (set_lengths m ol), tmp).

(** module.stream_buffer. *)
Definition tbuffers : Type := string -> option tensor.

Fixpoint all_present {B} (l : list (option B)) : res (list B) :=
  match l with
  | [] => Ok []
  | Some a :: t => do r <- all_present t; Ok (a :: r)
  | None :: _ => Err TypeError
  end.

(** torch.stack: a new first dimension; all sizes must agree. Library code. *)
Definition torch_stack (l : list tensor) : res tensor :=
  match l with
  | [] => Err RuntimeError
  | t0 :: _ =>
      if forallb (fun t => list_eqb Z.eqb (shp t0) (shp t)) l
      then Ok (mkTn (zlen l :: shp t0) (fun ix => match ix with b :: r => at_ (nth (Z.to_nat b) l t0) r | [] => at_ t0 [] end))
      else Err RuntimeError
  end.

(** torch.cat([b, x], dim=-1) of a buffer and a StreamTensor (overrides.py 52-90). *)
Definition cat_buffer (b : tensor) (x : stensor) : res stensor :=
  do y <- cat [OPlain b; OStream x] (-1);
  match y with OStream y' => Ok y' | OPlain _ => Err AttributeError end.

(** x.size(-1) of a buffer. *)
Definition last_size (o : option tensor) : res Z :=
  match o with
  | None => Ok 0
  | Some t => if Nat.eqb (ndim t) 0 then Err IndexError else Ok (size t (pred (ndim t)))
  end.

(** patches/conv.py 13-42 in streaming mode for a StreamTensor; [kw] is module.kernel_width (67). *)
Definition pre_hook_t (A : arith) (kw : Z) (st : tbuffers) (x : stensor) : res stensor :=
  if (1 <? kw) && negb (all_starting (smeta x)) then                                  (* 25 *)
    let bs := map st (ids (smeta x)) in                                               (* 26 *)
    do bl <- mapM last_size bs;                                                       (* 27 *)
    match bl with
    | [] => Err RuntimeError                                                          (* 28: min() of an empty tensor *)
    | r :: _ =>
        if forallb (fun n => n =? r) bl                                               (* 31 *)
        then do l <- all_present bs; do b <- torch_stack l; cat_buffer b x            (* 33-34 *)
        else
          do xs <- unpad_sequence_t x;                                                (* 38 *)
          do ys <- mapM (fun q => match snd q with None => Ok (fst q) | Some b => cat_buffer b (fst q) end) (zip xs bs);   (* 39 *)
          do y <- pad_stream_tensor_t (zero A) ys false;                              (* 40 *)
          permute y [1; 2; 0]
    end
  else Ok x.

(** patches/conv.py 45-57. *)
Definition post_hook_t (st : tbuffers) (m : meta) (tmp : list (string * tensor)) : tbuffers :=
  let st1 := fold_left (fun s q i => if String.eqb i (fst q) then Some (snd q) else s i) tmp st in
  fold_left (fun s (q : string * bool) => if snd q then (fun i => if String.eqb i (fst q) then None else s i) else s) (zip (ids m) (eos m)) st1.

(** patches/conv.py 67: kernel_size[0] + (kernel_size[0] - 1) * (dilation[0] - 1) of the module. *)
Definition module_width (k : conv_args) : res Z :=
  do ks <- (match nth_error (shp (weight k)) 2 with Some n => Ok n | None => Err IndexError end);
  do d <- first_of (dilation k);
  Ok (width_of ks d).

(** One online call of a patched nn.Conv1d with padding_mode "zeros". *)
Definition conv_call_t (A : arith) (k : conv_args) (st : tbuffers) (x : stensor) : res (stensor * tbuffers) :=
  do kw <- module_width k;
  do x1 <- pre_hook_t A kw st x;
  do '(y, tmp) <- conv1d_t A k x1;
  Ok (y, post_hook_t st (smeta y) tmp).

Fixpoint conv_run_t (A : arith) (k : conv_args) (st : tbuffers) (xs : list stensor) : res (list stensor * tbuffers) :=
  match xs with
  | [] => Ok ([], st)
  | x :: r => do '(y, st1) <- conv_call_t A k st x;
              do '(ys, st2) <- conv_run_t A k st1 r;
              Ok (y :: ys, st2)
  end.

End ConvTensor.
Arguments arith V : clear implicits.
Arguments conv_args V : clear implicits.
Arguments tbuffers V : clear implicits.

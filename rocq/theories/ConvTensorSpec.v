(** Vocabulary for convolutions on tensors (C83). *)

From Coq Require Import String List ZArith Bool Lia.
From Verif Require Import Py Meta MetaSpec Named Pad Conv ConvTensor.
Import ListNotations.
Open Scope Z_scope.

Section ConvTensorSpec.
Context {V : Type}.

(** The parameters of an nn.Conv1d as torch requires them: in and out channels, channels per group, kernel size, stride,
    dilation, padding. *)
Record module_ok (k : conv_args V) (cin cout cg ks s d p : nat) : Prop := mkModuleOk {
  mk_weight : shp (weight k) = [Z.of_nat cout; Z.of_nat cg; Z.of_nat ks];
  mk_bias : match bias k with Some b => shp b = [Z.of_nat cout] | None => True end;
  mk_stride : stride k = ATuple [Z.of_nat s];
  mk_dilation : dilation k = ATuple [Z.of_nat d];
  mk_padding : padding k = PNum (ATuple [Z.of_nat p]) \/ (padding k = PValid /\ p = 0%nat);
  mk_groups : 1 <= groups k;
  mk_cin : Z.of_nat cin = Z.of_nat cg * groups k;
  mk_cout : exists per, 1 <= per /\ Z.of_nat cout = per * groups k;
  mk_sizes : (1 <= ks /\ 1 <= s /\ 1 <= d)%nat
}.

(** Multiplication by a mask keeps or clears (finite values). *)
Definition mask_clears (A : arith V) : Prop := (forall v, times_mask A v true = v) /\ (forall v, times_mask A v false = zero A).

(** Output channel [o] from the columns below the kernel: its group reads the channels from (o / per) * cg on, where [per] is
    the number of output channels of a group. *)
Definition out_channel (A : arith V) (k : conv_args V) (cg ks per : nat) (cols : list (list V)) (o : nat) : V :=
  dot A (match bias k with Some b => Some (at_ b [Z.of_nat o]) | None => None end)
    (flat_map (fun c => map (fun j => (at_ (weight k) [Z.of_nat o; Z.of_nat c; Z.of_nat j],
                                       nth (o / per * cg + c) (nth j cols []) (zero A)))
                            (seq 0 ks))
              (seq 0 cg)).

(** The convolution seen column by column. *)
Definition columns_cfg (A : arith V) (k : conv_args V) (cin cout cg ks s d p : nat) : conv_cfg (list V) :=
  mkCfg ks d s p (fun cols => map (out_channel A k cg ks (cout / Z.to_nat (groups k)) cols) (seq 0 cout))
        (repeat (zero A) cin) (repeat (zero A) cout).

(** Rows of [w] columns of [c] values. *)
Definition sized (c w : nat) (rows : list (list (list V))) : Prop :=
  Forall (fun r => length r = w /\ Forall (fun col => length col = c) r) rows.

(** [t], of sizes (rows, c, w), holds the columns [rows]. *)
Definition holds_data (c w : nat) (t : @tensor V) (rows : list (list (list V))) : Prop :=
  shp t = [Z.of_nat (length rows); Z.of_nat c; Z.of_nat w] /\ sized c w rows /\
  (forall i row p col j v, nth_error rows i = Some row -> nth_error row p = Some col -> nth_error col j = Some v ->
     at_ t [Z.of_nat i; Z.of_nat j; Z.of_nat p] = v).

(** [x], with dimensions (B, f, L), is the batch [b] of columns of [c] values. *)
Record holds (c : nat) (f : dname) (x : @stensor V) (b : batch (list V)) : Prop := mkHolds {
  h_data : holds_data c (bw b) (tn x) (bd b);
  h_names : names x = [Some "B"%string; f; Some "L"%string];
  h_meta : smeta x = bm b
}.

(** A name that can stand between B and L. *)
Definition channel_name (f : dname) : Prop := f <> Some "B"%string /\ f <> Some "L"%string.

(** The metadata describes the rows: nonnegative lengths within the width. *)
Definition described (b : batch (list V)) : Prop :=
  exists h rs, bm b = of_rows h rs /\ length rs = length (bd b) /\ Forall (fun r => 0 <= rlen r <= Z.of_nat (bw b)) rs.

(** A buffer of sizes (c, n) holds [n] columns. *)
Definition holds_columns (c : nat) (t : @tensor V) (cols : list (list V)) : Prop :=
  shp t = [Z.of_nat c; Z.of_nat (length cols)] /\ Forall (fun col => length col = c) cols /\
  (forall p col j v, nth_error cols p = Some col -> nth_error col j = Some v -> at_ t [Z.of_nat j; Z.of_nat p] = v).

Definition same_buffers (c : nat) (st : tbuffers V) (st' : buffers (list V)) : Prop :=
  forall i, match st i, st' i with
            | Some t, Some cols => holds_columns c t cols
            | None, None => True
            | _, _ => False
            end.

(** Element [ch] of the column at position [q] of a sequence with [p] zero columns in front, zero outside. *)
Definition padded_value (A : arith V) (cols : list (list V)) (p q ch : nat) : V :=
  if (q <? p)%nat then zero A else nth ch (nth (q - p) cols []) (zero A).

(** Output [i] of channel [o] of the convolution of a whole sequence: bias and products of weights and values, channel by
    channel of the group of [o], [per] being the number of output channels of a group. *)
Definition conv_value (A : arith V) (k : conv_args V) (cg ks s d p per : nat) (cols : list (list V)) (i o : nat) : V :=
  dot A (match bias k with Some b => Some (at_ b [Z.of_nat o]) | None => None end)
    (flat_map (fun c => map (fun j => (at_ (weight k) [Z.of_nat o; Z.of_nat c; Z.of_nat j],
                                       padded_value A cols p (i * s + j * d) (o / per * cg + c)%nat))
                            (seq 0 ks))
              (seq 0 cg)).

(** [out] is the convolution of the whole sequence [cols]: as many columns as kernel positions fit. *)
Definition convolution_of (A : arith V) (k : conv_args V) (cout cg ks s d p : nat) (cols out : list (list V)) : Prop :=
  let W := (length cols + 2 * p)%nat in
  let span := (d * (ks - 1) + 1)%nat in
  length out = (if (W <? span)%nat then 0%nat else (W - span) / s + 1)%nat /\
  forall i col, nth_error out i = Some col ->
    length col = cout /\
    forall o v, nth_error col o = Some v -> v = conv_value A k cg ks s d p (cout / Z.to_nat (groups k)) cols i o.

End ConvTensorSpec.

(** Theorems of record about pooling layers in patched models (dreamstream/patches/general.py 18-43, dreamstream/tensor.py
    807-836): C94.  [pooled c l o]: the sequence [o] is the pooling of the sequence [l]; see PoolSpec.v. *)

From Coq Require Import String List ZArith Bool Lia.
From Verif Require Import Py Meta MetaSpec Pad Conv Modes Dispatch Pool PoolSpec PoolProofs PoolConvProofs.
Import ListNotations.
Open Scope string_scope.
Open Scope list_scope.
Open Scope nat_scope.

Definition biggest (l : list Z) : Z := fold_right Z.max 0%Z l.
(** Windows of two columns, one after the other. *)
Definition half : pool_cfg Z := mkPool 2 2 biggest.
(** Windows of three columns in steps of one. *)
Definition dense : pool_cfg Z := mkPool 3 1 biggest.
Definition piece (w : nat) (r : list Z) (first last : bool) : batch Z := mkBatch w [r] (mkMeta ["a"] [first] [last] [Z.of_nat w] None).
Definition shown (r : res (batch Z)) : res (list (list Z) * list Z) := match r with Ok y => Ok (bd y, lens (bm y)) | Err e => Err e end.

(** The layer is accepted by patch, and its function has no rule. *)
Example C94_accepted_ex : snd (patch_module (V := Z) KOther None) = None /\ handler_of "max_pool1d" = HDefault.
Proof. split; vm_compute; reflexivity. Qed.

(** When a call succeeds. *)
Theorem C94_succeeds : forall (V : Type) (c : pool_cfg V) (x : batch V),
  (exists y, pool_call c x = Ok y) <-> 0 < pk c /\ 0 < pst c /\ pk c <= bw x.
Proof. intros V c x. apply pool_call_ok. Qed.

(** One chunk: in every row, the columns whose windows lie in the real data come first, and they are the pooling of the real
    data; padding behind the data does not enter them. *)
Theorem C94_chunk : forall (V : Type) (c : pool_cfg V) (x y : batch V) j r n,
  pool_call c x = Ok y -> nth_error (bd x) j = Some r -> length r = bw x -> n <= bw x ->
  exists o m, nth_error (bd y) j = Some o /\ fits_windows c n m /\ pooled c (firstn n r) (firstn m o).
Proof. intros V c x y j r n. apply pool_chunk. Qed.

Example C94_chunk_ex :
  match pool_call half (mkBatch 4 [[1; 5; 3; 4]; [7; 2; 0; 0]]%Z (mkMeta ["a"; "b"] [true; true] [false; true] [4; 2]%Z None)) with
  | Ok y => bd y = [[5; 4]; [7; 0]]%Z
  | Err _ => False
  end /\ fits_windows half 4 2 /\ fits_windows half 2 1.
Proof. split; [vm_compute; reflexivity|]. unfold fits_windows, half. cbn [pk pst]. split; split; intros; lia. Qed.

(** Nothing else is in the output: as many rows as before, each with one column for every window that fits. *)
Theorem C94_shape : forall (V : Type) (c : pool_cfg V) (x y : batch V),
  pool_call c x = Ok y ->
  fits_windows c (bw x) (bw y) /\ length (bd y) = length (bd x) /\ Forall (fun o => length o = bw y) (bd y).
Proof. intros V c x y. apply pool_shape. Qed.

Example C94_shape_ex :
  match pool_call half (mkBatch 5 [[1; 5; 3; 4; 9]; [7; 2; 0; 0; 0]]%Z (mkMeta ["a"; "b"] [true; true] [false; true] [5; 2]%Z None)) with
  | Ok y => bw y = 2 /\ bd y = [[5; 4]; [7; 0]]%Z
  | Err _ => False
  end.
Proof. vm_compute. split; reflexivity. Qed.

(** A stream: if the windows do not overlap and every chunk holds a whole number of windows, the outputs for the chunks one
    after the other are the output for the whole stream. *)
Theorem C94_stream_partial : forall (V : Type) (c : pool_cfg V) ls ys m y,
  pk c = pst c -> Forall (fun l => Nat.divide (pst c) (length l)) ls ->
  Forall2 (fun l y => exists m, pool_call c (mkBatch (length l) [l] m) = Ok y) ls ys ->
  pool_call c (mkBatch (length (List.concat ls)) [List.concat ls] m) = Ok y ->
  bd y = [List.concat (map (fun y => List.concat (bd y)) ys)].
Proof. intros V c ls ys m y. apply pool_stream. Qed.

Example C94_stream_ex :
  shown (pool_call half (piece 4 [1; 5; 3; 4]%Z true false)) = Ok ([[5; 4]]%Z, [4%Z]) /\
  shown (pool_call half (piece 2 [2; 9]%Z false true)) = Ok ([[9]]%Z, [2%Z]) /\
  shown (pool_call half (piece 6 [1; 5; 3; 4; 2; 9]%Z true true)) = Ok ([[5; 4; 9]]%Z, [6%Z]).
Proof. split; [vm_compute; reflexivity|]. split; vm_compute; reflexivity. Qed.

(** The metadata never fit: a stream as long as the chunk is longer than the output, which cannot even be taken apart. *)
Theorem C94_lengths_refuted : forall (V : Type) (c : pool_cfg V) (x y : batch V) h rs r,
  pool_call c x = Ok y -> 1 < pk c -> bm x = of_rows h rs -> length (bd x) = length rs -> In r rs -> rlen r = Z.of_nat (bw x) ->
  bm y = bm x /\ (Z.of_nat (bw y) < rlen r)%Z /\ forall l, unpad_sequence y <> Ok l.
Proof.
  intros V c x y h rs r H K M L Hr E. split; [exact (proj2 (pool_meta c x y H K))|]. exact (pool_unpad c x y h rs r H K M L Hr E).
Qed.

Example C94_lengths_ex :
  match pool_call half (piece 4 [1; 5; 3; 4]%Z true true) with Ok y => bw y = 2 /\ unpad_sequence y = Err RuntimeError | Err _ => False end.
Proof. vm_compute. split; reflexivity. Qed.

(** A patched convolution behind the layer believes these lengths: where the pooling has made the chunk shorter by at least the
    kernel width less one, it keeps no columns for the next chunk (alone it keeps the last ones, C26). *)
Theorem C94_conv_behind_refuted : forall (V : Type) (c : pool_cfg V) (k : conv_cfg V) (l : list V) i (y z : batch V) st0 st,
  padn k = 0 -> strd k = 1 -> (1 < kernel_width k)%Z -> (kernel_width k <= Z.of_nat (length l))%Z ->
  pool_call c (mkBatch (length l) [l] (mkMeta [i] [true] [false] [Z.of_nat (length l)] None)) = Ok y ->
  (Z.of_nat (bw y) + kernel_width k <= Z.of_nat (length l) + 1)%Z ->
  conv_call k st0 y = Ok (z, st) -> st i = Some [].
Proof. intros V c k l i y z st0 st. apply pool_conv_buffer. Qed.

(** Kernel width 2, the kernel computes a + 10*b. *)
Definition pair_conv : conv_cfg Z := mkCfg 2 1 1 0 (fun l => fold_right (fun a s => (a + 10 * s)%Z) 0%Z l) 0%Z 0%Z.
Definition pool_conv (st : buffers Z) (x : batch Z) : res (batch Z * buffers Z) := do y <- pool_call half x; conv_call pair_conv st y.
Example C94_conv_behind_ex :
  match (do '(z1, st) <- pool_conv no_buffers (piece 4 [1; 5; 3; 4]%Z true false);
         do '(z2, st') <- pool_conv st (piece 4 [2; 9; 8; 1]%Z false true); Ok (bd z1, st "a", bd z2)) with
  | Ok (a, b, c) => a = [[45]]%Z /\ b = Some [] /\ c = [[89]]%Z
  | Err _ => False
  end /\
  match pool_conv no_buffers (piece 8 [1; 5; 3; 4; 2; 9; 8; 1]%Z true true) with Ok (z, _) => bd z = [[45; 94; 89]]%Z | Err _ => False end.
Proof. split; vm_compute; auto. Qed.

(** Overlapping windows: at every boundary between chunks columns are lost. *)
Theorem C94_overlap_refuted : forall (V : Type) (c : pool_cfg V) a b m1 m2 m3 y1 y2 y, 2 * pst c <= pk c ->
  pool_call c (mkBatch (length a) [a] m1) = Ok y1 -> pool_call c (mkBatch (length b) [b] m2) = Ok y2 ->
  pool_call c (mkBatch (length (a ++ b)) [a ++ b] m3) = Ok y -> bw y1 + bw y2 < bw y.
Proof. intros V c a b m1 m2 m3 y1 y2 y. apply pool_loses. Qed.

Example C94_overlap_ex :
  shown (pool_call dense (piece 3 [1; 5; 3]%Z true false)) = Ok ([[5]]%Z, [3%Z]) /\
  shown (pool_call dense (piece 3 [4; 2; 9]%Z false true)) = Ok ([[9]]%Z, [3%Z]) /\
  shown (pool_call dense (piece 6 [1; 5; 3; 4; 2; 9]%Z true true)) = Ok ([[5; 5; 4; 9]]%Z, [6%Z]).
Proof. split; [vm_compute; reflexivity|]. split; vm_compute; reflexivity. Qed.

(** Without overlap, chunks that do not hold a whole number of windows give other columns, and chunks shorter than a window
    make the call fail. *)
Theorem C94_odd_chunks_refuted :
  shown (pool_call half (piece 3 [1; 5; 8]%Z true false)) = Ok ([[5]]%Z, [3%Z]) /\
  shown (pool_call half (piece 3 [4; 2; 9]%Z false true)) = Ok ([[4]]%Z, [3%Z]) /\
  shown (pool_call half (piece 6 [1; 5; 8; 4; 2; 9]%Z true true)) = Ok ([[5; 8; 9]]%Z, [6%Z]) /\
  shown (pool_call half (piece 1 [4]%Z false false)) = Err RuntimeError.
Proof. split; [vm_compute; reflexivity|]. split; [vm_compute; reflexivity|]. split; vm_compute; reflexivity. Qed.

(* ---- assumptions *)
Print Assumptions C94_succeeds.
Print Assumptions C94_chunk.
Print Assumptions C94_shape.
Print Assumptions C94_stream_partial.
Print Assumptions C94_lengths_refuted.
Print Assumptions C94_conv_behind_refuted.
Print Assumptions C94_overlap_refuted.
Print Assumptions C94_odd_chunks_refuted.

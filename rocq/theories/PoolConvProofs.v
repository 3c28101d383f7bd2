(** Proofs: a streaming convolution behind a pooling layer. *)

From Coq Require Import String List ZArith Bool Lia.
From Coq Require Import ZifyBool.
From Verif Require Import Py Meta MetaSpec MetaProofs Pad Conv ConvSpec ConvProofs ConvMoreProofs Pool PoolSpec PoolProofs.
Import ListNotations.
Open Scope nat_scope.

Section PoolConv.
Context {V : Type}.

Lemma row_slice_behind (r : list V) a b : (0 <= a <= b)%Z -> (Z.of_nat (length r) <= a)%Z -> row_slice r a b = Ok [].
Proof.
  intros H L. unfold row_slice. change (tensor_slice r (mkSlice (Some a) (Some b) None)) with (sub_list r a b).
  rewrite sub_list_skip by lia. f_equal. apply skipn_all2. rewrite firstn_length. lia.
Qed.

Lemma pool_conv_buffer (c : pool_cfg V) (k : conv_cfg V) (l : list V) i (y z : batch V) st0 st :
  padn k = 0 -> strd k = 1 -> (1 < kernel_width k)%Z -> (kernel_width k <= Z.of_nat (length l))%Z ->
  pool_call c (mkBatch (length l) [l] (mkMeta [i] [true] [false] [Z.of_nat (length l)] None)) = Ok y ->
  (Z.of_nat (bw y) + kernel_width k <= Z.of_nat (length l) + 1)%Z ->
  conv_call k st0 y = Ok (z, st) -> st i = Some [].
Proof.
  intros P S1 K KL H W C. pose proof (pool_call_inv c _ y H) as (_ & _ & _ & _ & D & M). cbn [bd bm map] in D, M.
  destruct y as [wy dy my]. cbn [bw bd bm] in *. subst my dy.
  unfold conv_call, pre_hook in C. cbn [bm] in C. unfold all_starting in C. cbn [sos all_true forallb andb negb] in C.
  rewrite andb_false_r in C. cbn [bind] in C.
  unfold conv1d in C. rewrite P in C. cbn [bm bw bd lens map Nat.ltb Nat.leb] in C. cbn [andb bind] in C.
  unfold temp_buffer in C. replace (1 <? kernel_width k)%Z with true in C by lia. unfold all_ending in C. cbn [eos all_true forallb andb negb] in C.
  cbn [lens ids zip mapM map seqM] in C.
  assert (E : output_length k (Z.of_nat (length l)) = (Z.of_nat (length l) - kernel_width k + 1)%Z).
  { unfold output_length. rewrite S1. change (Z.of_nat 1) with 1%Z. rewrite Z.div_1_r. lia. }
  rewrite E, S1 in C. change (Z.of_nat 1) with 1%Z in C. rewrite Z.mul_1_r in C.
  rewrite row_slice_behind in C; [|lia|unfold pool_row; rewrite map_length, seq_length; lia].
  cbn [bind List.concat app] in C.
  destruct (torch_conv1d k 0 wy [pool_row c wy l]) as [[wo out]|]; [|discriminate]. cbn [bind] in C.
  destruct (sequence_mask _ _ _) as [mask|]; [|discriminate]. cbn [bind] in C. injection C as _ <-.
  unfold post_hook. cbn. unfold set_buffer. cbn [fst snd]. now rewrite String.eqb_refl.
Qed.
End PoolConv.

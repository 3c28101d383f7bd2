(** Theorems of record: padding, unpadding and masks (C49, C50). *)

From Coq Require Import String List ZArith Bool Lia.
From Coq Require Import ZifyBool.
From Verif Require Import Py Meta MetaSpec MetaProofs Pad ConvSpec PadProofs.
Import ListNotations.
Open Scope string_scope.
Open Scope list_scope.
Open Scope nat_scope.

(* ---------- C49 ---------- *)

(** Unpadding padded sequences gives them back, in order, with their ids; non-empty ones have sos and eos set. *)
Theorem C49_pad_then_unpad : forall (V : Type) (z : V) names ids (seqs : list (list V)),
  ~ In "B" names -> In "L" names -> seqs <> [] -> length ids = length seqs ->
  exists x, pad_full_sequence z seqs names ids = Ok x /\
    unpad_sequence x = Ok (map (fun q : string * list V =>
      let f := match snd q with [] => false | _ => true end in
      mkSingle (snd q) (mkMeta [fst q] [f] [f] [Z.of_nat (length (snd q))] None)) (zip ids seqs)).
Proof. intros V. exact pad_unpad. Qed.

(** pad_chunks keeps ids and flags, infers the lengths and pads with zero columns to the longest sequence. *)
Theorem C49_pad_chunks : forall (V : Type) (z : V) names ids s e (seqs : list (list V)),
  ~ In "B" names -> In "L" names -> seqs <> [] ->
  length ids = length seqs -> length s = length seqs -> length e = length seqs ->
  exists w, pad_chunks z seqs names ids s e
    = Ok (mkBatch w (map (fun d => d ++ repeat z (w - length d)) seqs)
                  (mkMeta ids s e (map (fun d => Z.of_nat (length d)) seqs) None)) /\
    (exists d, In d seqs /\ length d = w) /\ (forall d, In d seqs -> length d <= w).
Proof. intros V. exact pad_chunks_spec. Qed.

Theorem C49_pad_chunks_rejects : forall (V : Type) (z : V) names ids s e (seqs : list (list V)),
  In "B" names \/ ~ In "L" names -> pad_chunks z seqs names ids s e = Err ValueError.
Proof.
  intros V z names ids s e seqs H. unfold pad_chunks. destruct H as [H|H].
  - now rewrite (existsb_in _ _ H).
  - rewrite (existsb_not_in _ _ H). now destruct (existsb _ _).
Qed.

(** pad_stream_tensor puts single chunks into one batch with data, id and flags unchanged. Chunk indices are dropped, so
    this is less than claimed. *)
Theorem C49_rebatch_partial : forall (V : Type) (z : V) h (rs : list (chunk V)), rs <> [] ->
  pad_stream_tensor z (map (fun r => mkSingle (cdat r)
      (mkMeta [cid r] [csos r] [ceos r] [Z.of_nat (length (cdat r))] (if h : bool then Some [cch r] else None))) rs)
  = Ok (tensor_of z (mkTens (longest rs) false rs)).
Proof. intros V. exact rebatch. Qed.

(** unpad_sequence takes a batch (of any width) apart; only rows without data lose their flags. *)
Theorem C49_unpad : forall (V : Type) (z : V) w h (rs : list (chunk V)), longest rs <= w ->
  unpad_sequence (tensor_of z (mkTens w h rs)) = Ok (map (fun r => mkSingle (cdat r)
      (mkMeta [cid r] [match cdat r with [] => false | _ => csos r end] [match cdat r with [] => false | _ => ceos r end]
              [Z.of_nat (length (cdat r))] (if h : bool then Some [cch r] else None))) rs).
Proof. intros V. exact unpad_rows. Qed.

Example C49_example : exists x, pad_full_sequence 0%Z [[1; 2]; [3; 4; 5]]%Z ["L"; "F"] ["a"; "b"] = Ok x /\
  bd x = [[1; 2; 0]; [3; 4; 5]]%Z /\
  unpad_sequence x = Ok [mkSingle [1; 2]%Z (mkMeta ["a"] [true] [true] [2%Z] None);
                         mkSingle [3; 4; 5]%Z (mkMeta ["b"] [true] [true] [3%Z] None)].
Proof. eexists. split; [vm_compute; reflexivity|]. split; vm_compute; reflexivity. Qed.

Theorem C49_chunk_indices_dropped_refuted : exists (s : single Z) x s',
  pad_stream_tensor 0%Z [s] = Ok x /\ unpad_sequence x = Ok [s'] /\ sd s = sd s' /\
  chs (sm s) = Some [4%Z] /\ chs (sm s') = None.
Proof.
  exists (mkSingle [1; 2]%Z (mkMeta ["a"] [true] [false] [2%Z] (Some [4%Z]))). do 2 eexists.
  repeat split; vm_compute; reflexivity.
Qed.

(* ---------- C50 ---------- *)

Theorem C50_mask_given_width : forall lengths w inv, (0 < w)%Z ->
  exists m, sequence_mask lengths (Some w) inv = Ok m /\ length m = length lengths /\
    Forall (fun row => length row = Z.to_nat w) m /\
    forall i n j, nth_error lengths i = Some n -> j < Z.to_nat w ->
      exists row, nth_error m i = Some row /\ nth_error row j = Some (xorb inv (Z.of_nat j <? n)%Z).
Proof. exact mask_given. Qed.

Theorem C50_mask_width_inferred : forall lengths w inv, In w lengths -> (forall n, In n lengths -> n <= w)%Z -> (0 <= w)%Z ->
  exists m, sequence_mask lengths None inv = Ok m /\ length m = length lengths /\
    Forall (fun row => length row = Z.to_nat w) m /\
    forall i n j, nth_error lengths i = Some n -> j < Z.to_nat w ->
      exists row, nth_error m i = Some row /\ nth_error row j = Some (xorb inv (Z.of_nat j <? n)%Z).
Proof. exact mask_inferred. Qed.

Example C50_example : sequence_mask [2; 0; 3]%Z (Some 4%Z) false
    = Ok [[true; true; false; false]; [false; false; false; false]; [true; true; true; false]] /\
  sequence_mask [2; 0; 3]%Z None true = Ok [[false; false; true]; [true; true; true]; [false; false; false]].
Proof. split; reflexivity. Qed.

(** The only error is a RuntimeError: a negative width, or no width and no length that is not negative. *)
Theorem C50_rejects : forall lengths width inv e, sequence_mask lengths width inv = Err e <->
  e = RuntimeError /\ match width with
                     | Some w => (w < 0 \/ w = 0 /\ forall n, In n lengths -> n < 0)%Z
                     | None => (forall n, In n lengths -> n < 0)%Z
                     end.
Proof. exact mask_rejects. Qed.
Example C50_rejects_example : sequence_mask [2; 1]%Z (Some (-1)%Z) false = Err RuntimeError /\ sequence_mask [] None false = Err RuntimeError /\
  sequence_mask [-1]%Z None false = Err RuntimeError.
Proof. repeat split; reflexivity. Qed.

(** max_len = 0 is taken for "not given": the mask has columns although none were asked for. *)
Theorem C50_zero_width_refuted : sequence_mask [2; 1]%Z (Some 0%Z) false = Ok [[true; true]; [true; false]].
Proof. reflexivity. Qed.

(* ---- assumptions *)
Print Assumptions C49_pad_then_unpad.
Print Assumptions C49_pad_chunks.
Print Assumptions C49_pad_chunks_rejects.
Print Assumptions C49_rebatch_partial.
Print Assumptions C49_unpad.
Print Assumptions C49_chunk_indices_dropped_refuted.
Print Assumptions C50_mask_given_width.
Print Assumptions C50_mask_width_inferred.
Print Assumptions C50_rejects.
Print Assumptions C50_zero_width_refuted.

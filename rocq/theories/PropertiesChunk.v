(** Theorems of record about the chunk size in double precision. *)

From Coq Require Import String List ZArith Bool Lia.
From Coq Require Import ZifyBool.
From Verif Require Import Py Meta Pad Data DataSpec DataProofs F32 F32Proofs Float64 Float64Proofs.
Import ListNotations.
Open Scope string_scope.
Open Scope list_scope.
Open Scope Z_scope.

(* ------------------------------------------------------------------ C74 *)

(** chunk_seconds is the float cn / cd, the file has [n] frames, the transformed audio [L] of them: the exact value is
    cn * rate * L / (cd * n). An int [N] closer to it than a half, by 2^-50 of the value, is the chunk size. *)
Theorem C74_chunk_size : forall cn cd rate n L N, 0 < cn -> 0 < cd -> 0 < rate <= 2 ^ 53 -> 0 < n -> 0 < L ->
  2 ^ 53 * (2 * Z.abs (cn * rate * L - N * (cd * n))) + 8 * (cn * rate * L) < 2 ^ 53 * (cd * n) ->
  chunk_size64 (cn, cd) rate n L = Ok N.
Proof. intros cn cd rate n L N H1 H2 H3 H4 H5 H6. exact (proj1 (chunk_size64_safe cn cd rate n L N H1 H2 H3 H4 H5 H6)). Qed.
(** 0.3 is a little less than 3 / 10 as a float; 0.3 s at 44.1 kHz, and with a transform that keeps one frame in 160. *)
Example C74_chunk_size_example :
  round_float 53 (3, 10) = (5404319552844595, 2 ^ 54) /\ 5404319552844595 * 10 < 3 * 2 ^ 54 /\
  chunk_size64 (5404319552844595, 2 ^ 54) 44100 1000000 1000000 = Ok 13230 /\
  chunk_size64 (5404319552844595, 2 ^ 54) 44100 1000000 6250 = Ok 83.
Proof. split; [vm_compute; reflexivity|]. split; [vm_compute; reflexivity|]. split; vm_compute; reflexivity. Qed.

(** Without any condition on ties: the chunk size is an int nearest to the exact value up to 2^-51 of it. *)
Theorem C74_never_far : forall cn cd rate n L N, 0 < cn -> 0 < cd -> 0 < rate <= 2 ^ 53 -> 0 < n -> 0 < L ->
  chunk_size64 (cn, cd) rate n L = Ok N ->
  2 ^ 53 * (2 * Z.abs (N * (cd * n) - cn * rate * L)) <= 2 ^ 53 * (cd * n) + 8 * (cn * rate * L).
Proof. exact chunk_size64_half. Qed.
Example C74_never_far_example :
  chunk_size64 (round_float 53 (1, 10)) 25 7 7 = Ok 2 /\ (1 * 25 * 7) mod (10 * 7) = 35.
Proof. split; vm_compute; reflexivity. Qed.

(** A duration written as a decimal or any other fraction, rounded to a float: if it stands for a whole number of frames (up to
    2^49), that is the chunk size. *)
Theorem C74_whole_frames : forall qn qd rate n L N, 0 < qn -> 0 < qd -> 0 < rate <= 2 ^ 53 -> 0 < n -> 0 < L ->
  qn * rate * L = N * (qd * n) -> N <= 2 ^ 49 -> chunk_size64 (round_float 53 (qn, qd)) rate n L = Ok N.
Proof. intros qn qd rate n L N H1 H2 H3 H4 H5 H6 H7. exact (chunk_size64_decimal qn qd _ rate n L N H1 H2 eq_refl H3 H4 H5 H6 H7). Qed.
(** 0.1 s at 16 kHz are 1600 frames, and 10 after a transform that keeps one frame in 160, for a file of 48000 frames. *)
Example C74_whole_frames_example :
  chunk_size64 (round_float 53 (1, 10)) 16000 48000 48000 = Ok 1600 /\
  chunk_size64 (round_float 53 (1, 10)) 16000 48000 300 = Ok 10 /\ 1 * 16000 * 300 = 10 * (10 * 48000).
Proof. split; [vm_compute; reflexivity|]. split; [vm_compute; reflexivity|reflexivity]. Qed.

(** Iterating a file then gives what C40 says of exact arithmetic. *)
Theorem C74_file : forall (V : Type) (w : world V) d f raw rate N, load w f = Ok (raw, rate) -> raw <> [] -> transform w raw <> [] ->
  0 < dcn d -> 0 < dcd d -> 0 < rate <= 2 ^ 53 -> 0 < N ->
  2 ^ 53 * (2 * Z.abs (dcn d * rate * zlen (transform w raw) - N * (dcd d * zlen raw))) + 8 * (dcn d * rate * zlen (transform w raw))
    < 2 ^ 53 * (dcd d * zlen raw) ->
  exists l, yields (process_data64 w d f) l /\ complete_file l /\
    N * (Z.of_nat (length l) - 1) < zlen (transform w raw) <= N * Z.of_nat (length l) /\
    zsum (map slen l) = zlen (transform w raw) /\
    forall k s, nth_error l k = Some s -> sid s = f /\ sidx s = Z.of_nat k /\ snum s = Z.of_nat (length l) /\
      0 < slen s <= N /\ ((S k < length l)%nat -> slen s = N).
Proof.
  intros V w d f raw rate N HL H1 H2 H3 H4 H5 HP HN. rewrite (process_data64_same w d f raw rate N) by assumption.
  apply (process_spec w d f raw rate N HL); [|exact HP].
  assert (0 < zlen raw) by (unfold zlen; destruct raw; [contradiction|cbn; lia]).
  assert (0 < zlen (transform w raw)) by (unfold zlen; destruct (transform w raw); [contradiction|cbn; lia]).
  exact (proj2 (chunk_size64_safe (dcn d) (dcd d) rate (zlen raw) (zlen (transform w raw)) N H3 H4 H5 H H0 HN)).
Qed.
Example C74_file_example :
  let w := mkWorld (fun _ => Ok ([1; 2; 3; 4; 5], 20)) (fun _ => Ok (5, 20)) (fun x : list Z => x) in
  let d := mkDataset ["a"] (fst (round_float 53 (1, 10))) (snd (round_float 53 (1, 10))) [] [] (Some 1) false false in
  chunk_size (dcn d) (dcd d) 20 5 5 = Ok 2 /\
  yields (process_data64 w d "a")
    [mkSample [1; 2; 3; 4; 5] true false 2 0 3 "a"; mkSample [1; 2; 3; 4; 5] false false 2 1 3 "a"; mkSample [1; 2; 3; 4; 5] false true 1 2 3 "a"].
Proof. cbv zeta. split; [vm_compute; reflexivity|]. vm_compute. reflexivity. Qed.

(** A file without frames, or a transform that leaves none, ends the iteration with an error: there is no stride. *)
Theorem C74_no_frames : forall (V : Type) (w : world V) d f raw rate, load w f = Ok (raw, rate) -> raw = [] \/ transform w raw = [] ->
  process_data64 w d f = GRaise ZeroDivisionError.
Proof.
  intros V w d f raw rate HL H. unfold process_data64. rewrite HL. cbn [bind]. unfold chunk_size64.
  destruct (zlen (transform w raw) =? 0) eqn:E; [reflexivity|]. destruct H as [H|H]; [|rewrite H in E; discriminate E].
  subst raw. unfold round_float. cbn. reflexivity.
Qed.

(** Halfway between two ints rounding shows. The float next to 0.1 times 25 is more than 2.5, but 2.5 as a float, and gives chunks
    of two frames instead of three. *)
Theorem C74_tie_refuted : exists cn cd rate n L, (cn, cd) = round_float 53 (1, 10) /\ 0 < n /\ n = L /\
  2 * (cn * rate * L) > 5 * (cd * n) /\ chunk_size cn cd rate n L = Ok 3 /\ chunk_size64 (cn, cd) rate n L = Ok 2.
Proof.
  exists 7205759403792794, (2 ^ 56), 25, 1000, 1000. split; [vm_compute; reflexivity|]. split; [lia|]. split; [reflexivity|].
  split; [vm_compute; reflexivity|]. split; vm_compute; reflexivity.
Qed.

(** 0.35 s at 22050 Hz are 7717.5 frames, which rounds to 7718 (the even one); the float product is 7717.499999999999, which gives 7717. *)
Theorem C74_half_frames_refuted : exists qn qd rate n, 0 < n /\ 2 * (qn * rate) = 15435 * qd /\
  chunk_size qn qd rate n n = Ok 7718 /\ chunk_size64 (round_float 53 (qn, qd)) rate n n = Ok 7717.
Proof. exists 35, 100, 22050, 44100. split; [lia|]. split; [reflexivity|]. split; vm_compute; reflexivity. Qed.

(* ---- assumptions *)
Print Assumptions C74_chunk_size.
Print Assumptions C74_never_far.
Print Assumptions C74_whole_frames.
Print Assumptions C74_file.
Print Assumptions C74_no_frames.
Print Assumptions C74_tie_refuted.
Print Assumptions C74_half_frames_refuted.

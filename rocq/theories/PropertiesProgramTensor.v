(** Theorems of record: align_to (C87) and the example program examples/wav2letter.py on tensors (C88).

    [tprogram A Ls items draws coins] is the program with the network [Ls] on tensors of sizes (features, length), [ttarget] the
    model in offline mode; the random numbers are inputs, None says that the program wants more of them. See ProgramTensor.v.
    [lasting] computes from the sizes of the chunks whether one of them becomes empty on its way through the convolutions; see
    ProgramSpec.v. *)

From Coq Require Import String List ZArith Bool Lia.
From Coq Require Import ZifyBool.
From Verif Require Import Py Meta MetaSpec Named NamedSpec Pad Conv ConvSpec Stack StackSpec ConvTensor ConvTensorSpec ConvTensorProofs ConvNet ConvNetSpec
  Ragged AlignTo AlignToSpec AlignToProofs Program ProgramSpec ProgramTensor ProgramTensorSpec ProgramTensorProofs ProgramTensorRunProofs
  ProgramTensorEndProofs PropertiesConvTensor PropertiesConvNet.
Import ListNotations.
Open Scope string_scope.
Open Scope list_scope.
Open Scope Z_scope.

(* ---------- C87: align_to ---------- *)

(** All dimensions named, the target contains all of them: the data is the same under the names, new dimensions have size 1,
    the metadata is that of the operand. *)
Theorem C87_align_to : forall (V : Type) (x : @stensor V) target,
  fully_named (names x) -> fully_named target -> incl (names x) target ->
  exists y, align_to x target = Ok y /\ realigned x target y.
Proof. intros V. exact align_to_ok. Qed.

(** Otherwise RuntimeError. *)
Theorem C87_refused : forall (V : Type) (x : @stensor V) target, ~ In None target ->
  In None (names x) \/ ~ incl (names x) target \/ ~ names_distinct target -> align_to x target = Err RuntimeError.
Proof. intros V. exact align_to_refused. Qed.

(** A well-formed stream tensor stays one: same rows, batch and length dimensions where the target has them. *)
Theorem C87_well_formed : forall (V : Type) (x : @stensor V) bd ld c rs T target y, stream_ok x bd ld c rs T -> align_to x target = Ok y ->
  exists bd' ld', nth_error target bd' = Some (Some "B") /\ nth_error target ld' = Some (Some "L") /\ stream_ok y bd' ld' c rs T.
Proof. intros V. exact align_to_stream. Qed.

(** A chunk without batch dimension, aligned to names with one, is a well-formed batch of one row. *)
Theorem C87_single : forall (V : Type) (x : @stensor V) ld c r T target y,
  length (names x) = length (shp (tn x)) -> names_distinct (names x) -> Forall (fun n => 0 <= n) (shp (tn x)) ->
  ~ In (Some "B") (names x) -> nth_error (names x) ld = Some (Some "L") -> nth_error (shp (tn x)) ld = Some T ->
  smeta x = of_rows c [r] -> 0 <= rlen r <= T -> In (Some "B") target -> align_to x target = Ok y ->
  exists bd' ld', stream_ok y bd' ld' c [r] T.
Proof. intros V. exact align_to_single. Qed.

(** If the target adds no dimension, aligning back gives the operand. *)
Theorem C87_back : forall (V : Type) (x : @stensor V) target y,
  length (names x) = length (shp (tn x)) -> names_distinct (names x) -> incl target (names x) -> align_to x target = Ok y ->
  exists x', align_to y (names x) = Ok x' /\ names x' = names x /\ smeta x' = smeta x /\ shp (tn x') = shp (tn x) /\
    (forall ix, length ix = length (shp (tn x)) -> at_ (tn x') ix = at_ (tn x) ix).
Proof. intros V. exact align_to_back. Qed.

Definition al_meta : meta := mkMeta ["a"; "b"] [true; false] [false; true] [3; 2] None.
Definition al_x : @stensor Z := mkSt (mkTn [2; 4; 3] (fun ix => 100 * nth 0 ix 0 + 10 * nth 1 ix 0 + nth 2 ix 0)) [Some "B"; Some "F"; Some "L"] al_meta.

Example C87_example :
  match align_to al_x [Some "F"; Some "L"; Some "X"; Some "B"] with
  | Ok y => shp (tn y) = [4; 3; 1; 2] /\ names y = [Some "F"; Some "L"; Some "X"; Some "B"] /\ smeta y = al_meta /\
            at_ (tn y) [3; 2; 0; 1] = 132 /\ at_ (tn al_x) [1; 3; 2] = 132
  | _ => False
  end /\
  fully_named (names al_x) /\ incl (names al_x) [Some "F"; Some "L"; Some "X"; Some "B"].
Proof.
  split; [vm_compute; auto 10|]. split; [|intros n [<-|[<-|[<-|[]]]]; cbn; auto 10]. split.
  - intros i j s Hi Hj; destruct i as [|[|[|i]]], j as [|[|[|j]]]; cbn in Hi, Hj; congruence || reflexivity || (destruct i; discriminate) || (destruct j; discriminate).
  - cbn. intuition discriminate.
Qed.

Example C87_refused_example :
  align_to al_x [Some "F"; Some "L"; Some "X"] = Err RuntimeError /\
  align_to al_x [Some "F"; Some "L"; Some "B"; Some "L"] = Err RuntimeError /\
  align_to (mkSt (tn al_x) [Some "B"; None; Some "L"] al_meta) [Some "B"; Some "F"; Some "L"] = Err RuntimeError.
Proof. vm_compute. auto. Qed.

(** Aligning back; a chunk without batch dimension. *)
Example C87_back_example :
  match align_to al_x [Some "L"; Some "B"; Some "F"] with
  | Ok y => match align_to y [Some "B"; Some "F"; Some "L"] with
            | Ok x' => shp (tn y) = [3; 2; 4] /\ at_ (tn y) [2; 1; 3] = 132 /\ shp (tn x') = [2; 4; 3] /\ at_ (tn x') [1; 3; 2] = 132
            | _ => False
            end
  | _ => False
  end /\
  match align_to (mkSt (mkTn [4; 3] (fun ix => 10 * nth 0 ix 0 + nth 1 ix 0)) [Some "F"; Some "L"] (of_rows false [mkRow "a" true false 2 0]))
                 [Some "B"; Some "F"; Some "L"] with
  | Ok y => shp (tn y) = [1; 4; 3] /\ at_ (tn y) [0; 3; 1] = 31 /\ lens (smeta y) = [2]
  | _ => False
  end.
Proof. vm_compute. auto 10. Qed.

(* ---------- C88: the example program on tensors ---------- *)

(** If no chunk becomes empty, then with as many heads as chunks the program ends and has collected for each id the row of
    the output of the model offline; with fewer it wants more coins. No call raises. *)
Theorem C88_program : forall (V : Type) (A : arith V) c Ls qs c' z' items mn mx draws coins css,
  mask_clears A -> network A c (repeat (zero A) c) Ls qs c' z' -> net_overlapping Ls qs ->
  items <> [] -> NoDup (map fst items) ->
  Forall (fun it : string * @tensor V => exists n, 0 < n /\ shp (snd it) = [Z.of_nat c; n]) items ->
  1 <= mn -> Forall (fun d => mn <= d <= mx) draws ->
  all_chunks (map (fun it => nth 1 (shp (snd it)) 0) items) draws = Some css ->
  Forall (fun cs => lasting (net_shapes Ls qs) (map Z.to_nat cs)) css ->
  if (length (List.concat css) <=? heads coins)%nat
  then exists outs, tprogram A Ls items draws coins = Some (Ok outs) /\
         Forall2 (fun it y => exists t, ttarget A Ls (snd it) = Ok t /\ row_of t y) items outs
  else tprogram A Ls items draws coins = None.
Proof. intros V A. exact (tprogram_offline A). Qed.

(** The program on tensors and on columns (C73): same need of random numbers, same outputs, both raise or none. *)
Theorem C88_columns : forall (V : Type) (A : arith V) c Ls qs c' z' (items : list (string * @tensor V)) items' draws coins,
  mask_clears A -> network A c (repeat (zero A) c) Ls qs c' z' ->
  Forall2 (fun it it' => fst it = fst it' /\ holds_columns c (snd it) (snd it')) items items' ->
  match tprogram A Ls items draws coins, program (column_layers A c Ls qs) (repeat (zero A) c) items' draws coins with
  | Some r, Some r' => agree (Forall2 (holds_columns c')) r r'
  | None, None => True
  | _, _ => False
  end.
Proof. intros V A. exact (program_agrees A). Qed.

Definition ramp (k n : Z) : @tensor Z := mkTn [2; n] (fun ix => k + 3 * nth 0 ix 0 + nth 1 ix 0 * nth 1 ix 0).
Definition ramps : list (string * @tensor Z) := [("a", ramp 1 7); ("b", ramp (-5) 9)].

Example C88_example :
  match tprogram ints small_net ramps [4; 4; 5; 4] [true; false; true; true; true], ttarget ints small_net (ramp 1 7), ttarget ints small_net (ramp (-5) 9) with
  | Some (Ok [y; y']), Ok t, Ok t' =>
      shp y = [3; 7] /\ shp t = [1; 3; 7] /\ shp y' = [3; 9] /\ shp t' = [1; 3; 9] /\
      map (fun p => at_ y [1; p]) [0; 3; 6] = map (fun p => at_ t [0; 1; p]) [0; 3; 6] /\
      map (fun p => at_ y' [1; p]) [0; 4; 8] = map (fun p => at_ t' [0; 1; p]) [0; 4; 8] /\
      map (fun p => at_ y' [1; p]) [0; 4; 8] <> [0; 0; 0]
  | _, _, _ => False
  end /\
  tprogram ints small_net ramps [4; 4; 5; 4] [true; false; true; true] = None.
Proof. vm_compute. split; [|reflexivity]. split; [reflexivity|]. split; [reflexivity|]. split; [reflexivity|]. split; [reflexivity|]. split; [reflexivity|]. split; [reflexivity|discriminate]. Qed.

Example C88_example_hypotheses :
  mask_clears ints /\ net_overlapping small_net small_sizes /\ all_chunks [7; 9] [4; 4; 5; 4] = Some [[4; 3]; [5; 4]] /\
  net_shapes small_net small_sizes = [(3, 1, 1); (3, 1, 1)]%nat /\
  Forall (fun cs => lasting (net_shapes small_net small_sizes) (map Z.to_nat cs)) [[4; 3]; [5; 4]].
Proof.
  split; [split; reflexivity|]. split; [cbn; lia|]. split; [reflexivity|]. split; [reflexivity|].
  assert (E : net_shapes small_net small_sizes = [(3, 1, 1); (3, 1, 1)]%nat) by reflexivity. rewrite E. clear E.
  constructor; [|constructor; [|constructor]]; vm_compute; auto 20.
Qed.

(** Wav2Letter for waveforms with any number of channels: the sizes of the program (chunks of 16000 to 32000 samples, sequences longer
    than 32000) are safe if every last chunk has 115 samples or more. *)
Theorem C88_wav2letter : forall (V : Type) (A : arith V) c Ls qs c' z' items draws coins css,
  mask_clears A -> network A c (repeat (zero A) c) Ls qs c' z' -> net_overlapping Ls qs -> net_shapes Ls qs = wav2letter_shapes ->
  items <> [] -> NoDup (map fst items) ->
  Forall (fun it : string * @tensor V => exists n, 32000 < n /\ shp (snd it) = [Z.of_nat c; n]) items ->
  Forall (fun d => 16000 <= d <= 32000) draws ->
  all_chunks (map (fun it => nth 1 (shp (snd it)) 0) items) draws = Some css ->
  Forall (fun cs => 115 <= last cs 0) css -> (length (List.concat css) <= heads coins)%nat ->
  exists outs, tprogram A Ls items draws coins = Some (Ok outs) /\
    Forall2 (fun it y => exists t, ttarget A Ls (snd it) = Ok t /\ row_of t y) items outs.
Proof. intros V A. exact (tprogram_wav2letter A). Qed.

(** A sequence of 80046 samples, within the program's range, with draws within its range: an error. *)
Theorem C88_short_last_chunk_refuted : forall (V : Type) (A : arith V) c Ls qs c' z' i (d : @tensor V),
  mask_clears A -> network A c (repeat (zero A) c) Ls qs c' z' -> net_overlapping Ls qs -> net_shapes Ls qs = wav2letter_shapes ->
  shp d = [Z.of_nat c; 80046] ->
  exists e, tprogram A Ls [(i, d)] [16000; 16000; 16000; 16000; 16045; 16000] (repeat true 6) = Some (Err e).
Proof. intros V A. exact (tprogram_short A). Qed.

(** A network with the sizes of Wav2Letter: relu behind each convolution and a function of the 40 classes at the end. *)
Definition wav_conv (cin cout ks s p : nat) : conv_args Z :=
  mkArgs (mkTn [Z.of_nat cout; Z.of_nat cin; Z.of_nat ks] (fun ix => nth 0 ix 0 - nth 1 ix 0 + nth 2 ix 0)) (Some (mkTn [Z.of_nat cout] (fun ix => nth 0 ix 0)))
         (ATuple [Z.of_nat s]) (PNum (ATuple [Z.of_nat p])) (ATuple [1]) 1.
(** in channels, out channels, kernel size, stride, padding *)
Definition wav_sizes : list (nat * nat * nat * nat * nat) :=
  [(1, 250, 250, 160, 45); (250, 250, 48, 2, 23); (250, 250, 7, 1, 3); (250, 250, 7, 1, 3); (250, 250, 7, 1, 3); (250, 250, 7, 1, 3);
   (250, 250, 7, 1, 3); (250, 250, 7, 1, 3); (250, 250, 7, 1, 3); (250, 2000, 32, 1, 16); (2000, 2000, 1, 1, 0); (2000, 40, 1, 1, 0)]%nat.
Definition wav_layers : list (net_layer Z) :=
  flat_map (fun '(i, o, k, s, p) => [NConv (wav_conv i o k s p); NStep o relu]) wav_sizes ++ [NStep 40 below_max].
Definition wav_qs : list sizes := flat_map (fun '(i, _, k, s, p) => [mkSizes i k s 1 p; q0]) wav_sizes ++ [q0].

Lemma wav_conv_ok cin cout ks s p : (1 <= cout)%nat -> (1 <= ks)%nat -> (1 <= s)%nat -> module_ok (wav_conv cin cout ks s p) cin cout cin ks s 1 p.
Proof. intros H1 H2 H3. constructor; try reflexivity; try (cbn [groups wav_conv]; lia). - left. reflexivity. - exists (Z.of_nat cout). cbn [groups wav_conv]. lia. Qed.
Lemma relu_zeros n : relu (repeat 0 n) = repeat 0 n.
Proof. induction n as [|n IH]; [reflexivity|]. cbn [repeat]. unfold relu in *. cbn [map]. now rewrite IH. Qed.
Lemma wav_step i o k s p Ls qs c' z' : (1 <= o)%nat -> (1 <= k)%nat -> (1 <= s <= k)%nat -> network ints o (repeat 0 o) Ls qs c' z' ->
  network ints i (repeat 0 i) (NConv (wav_conv i o k s p) :: NStep o relu :: Ls) (mkSizes i k s 1 p :: q0 :: qs) c' z'.
Proof.
  intros H1 H2 H3 H. apply (N_conv ints i o); [apply wav_conv_ok; cbn [z_cg z_ks z_s z_d z_p]; lia|cbn [z_cg z_ks z_s z_d z_p]; lia|].
  apply N_step; [intros l <-; unfold relu; apply map_length|]. change (zero ints) with 0. now rewrite relu_zeros.
Qed.

Example C88_wav2letter_example :
  (exists z', network ints 1 (repeat (zero ints) 1) wav_layers wav_qs 40 z') /\ net_overlapping wav_layers wav_qs /\ net_shapes wav_layers wav_qs = wav2letter_shapes.
Proof.
  split; [|split].
  - exists (below_max (repeat 0 40)). change (zero ints) with 0. unfold wav_layers, wav_qs, wav_sizes. cbn [flat_map app].
    do 12 (apply wav_step; [apply Nat.leb_le; reflexivity|apply Nat.leb_le; reflexivity|split; apply Nat.leb_le; reflexivity|]).
    apply N_step; [intros l <-; unfold below_max; apply map_length|]. apply N_nil.
  - unfold wav_layers, wav_qs, wav_sizes. cbn [flat_map app net_overlapping z_s z_d z_ks]. lia.
  - unfold wav_layers, wav_qs, wav_sizes. cbn [flat_map app net_shapes z_s z_d z_ks z_p]. vm_compute. reflexivity.
Qed.

(* ---- assumptions *)
Print Assumptions C87_align_to.
Print Assumptions C87_refused.
Print Assumptions C87_well_formed.
Print Assumptions C87_single.
Print Assumptions C87_back.
Print Assumptions C88_program.
Print Assumptions C88_columns.
Print Assumptions C88_wav2letter.
Print Assumptions C88_short_last_chunk_refuted.

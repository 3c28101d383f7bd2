(** Theorem of record: the whole pipeline (C51).

    [chop] unpads the batch and splits every stream, [stream_through] pads the chunks of every step to a batch and calls
    the patched model on it, [update] hands the outputs to the collector; see Pipeline.v, Collector.v. [items_ok] and
    [scheduled] describe the chunks and the order in which they are batched; see PipelineSpec.v. *)

From Coq Require Import String List ZArith Bool Lia.
From Coq Require Import ZifyBool.
From Verif Require Import Py Meta MetaSpec Pad Conv ConvSpec Stack StackSpec Collector CollectorSpec Pipeline PipelineSpec PipelineProofs.
Import ListNotations.
Open Scope string_scope.
Open Scope list_scope.
Open Scope nat_scope.

(** Padding and chopping always succeed and give for every sequence a complete stream of non-empty chunks with its data.
    Whatever the schedule, if all calls of the model succeed and no first or last chunk vanishes between layers, the
    collector accepts all outputs and maps each id to the offline output of its sequence, started and ended. *)
Theorem C51_end_to_end : forall (V : Type) (Ls : list (layer V)) (z z' : V) names (items : list (string * list V)) cuts,
  Forall good_layer Ls -> zero_preserving z Ls z' ->
  ~ In "B" names -> In "L" names -> items <> [] -> NoDup (map fst items) -> Forall (fun it => snd it <> []) items ->
  Forall2 (fun it s => proper_cut (length (snd it)) s) items cuts ->
  exists x pieces, pad_full_sequence z (map snd items) names (map fst items) = Ok x /\
    chop x cuts = Ok (map (map (single_tensor false)) pieces) /\ items_ok items pieces /\
    forall sched ys, scheduled items pieces sched -> Forall (survives_through Ls) pieces ->
      stream_through Ls z (map (map (single_tensor false)) sched) = Ok ys ->
      exists c, update new_collector (map InBatch ys) = (c, None) /\
        forall i d, In (i, d) items -> entries c i = Some (mkSingle (stack_offline Ls d)
          (mkMeta [i] [true] [true] [Z.of_nat (length (stack_offline Ls d))] None)).
Proof. intros V. exact end_to_end. Qed.

(** Two convolutions with a rectifier in between; "a" is cut into chunks of 3 columns, "b" into chunks of 3 and 1. *)
Definition dig (l : list Z) : Z := fold_right (fun a s => (a + 10 * s)%Z) 0%Z l.
Definition network : list (layer Z) := [LConv (mkCfg 2 1 1 0 dig 0%Z 0%Z); LMap (Z.max 0); LConv (mkCfg 3 1 1 1 dig 0%Z 0%Z)].
Definition inputs : list (string * list Z) := [("a", [1; 2; -3; 4; 5]); ("b", [7; 8; 9; 6])]%Z.
Definition inputs_cuts : list ssize := [SInt 3; SList [3; 1]]%Z.
Definition inputs_pieces : list (list (chunk Z)) :=
  [ [mkChunk "a" true false [1; 2; -3] 0; mkChunk "a" false true [4; 5] 0];
    [mkChunk "b" true false [7; 8; 9] 0; mkChunk "b" false true [6] 0] ]%Z.
(** "b" starts one step later, in the first row, and ends one step later. *)
Definition inputs_sched : list (list (chunk Z)) :=
  [ [mkChunk "a" true false [1; 2; -3] 0]; [mkChunk "b" true false [7; 8; 9] 0; mkChunk "a" false true [4; 5] 0];
    [mkChunk "b" false true [6] 0] ]%Z.

Example C51_example_hypotheses :
  Forall good_layer network /\ zero_preserving 0%Z network 0%Z /\
  Forall2 (fun it s => proper_cut (length (snd it)) s) inputs inputs_cuts /\
  (do x <- pad_full_sequence 0%Z (map snd inputs) ["L"] (map fst inputs); chop x inputs_cuts)
    = Ok (map (map (single_tensor false)) inputs_pieces) /\
  scheduled inputs inputs_pieces inputs_sched /\ Forall (survives_through network) inputs_pieces.
Proof.
  split; [repeat constructor; vm_compute; lia|]. split; [vm_compute; auto|].
  split; [constructor; [vm_compute; discriminate|constructor; [split; [repeat (constructor; [lia|]); constructor|reflexivity]|constructor]]|]. split; [vm_compute; reflexivity|]. split.
  - split; [|split].
    + repeat constructor; simpl; try discriminate; intuition discriminate.
    + repeat constructor.
    + intros r H. repeat (destruct H as [<-|H]; [vm_compute; auto|]). destruct H.
  - repeat (apply Forall_cons; [vm_compute; repeat first [apply Forall_cons | apply Forall_nil | exact I | intros _; discriminate | split]|]).
    apply Forall_nil.
Qed.

Example C51_example :
  match stream_through network 0%Z (map (map (single_tensor false)) inputs_sched) with
  | Ok ys => match update new_collector (map InBatch ys) with
             | (c, None) => (entries c "a", entries c "b", entries c "c")
                 = (Some (mkSingle [210; 3721; 5770; 577] (mkMeta ["a"] [true] [true] [4] None)),
                    Some (mkSingle [10670; 7967; 788] (mkMeta ["b"] [true] [true] [3] None)), None)%Z
             | _ => False
             end
  | Err _ => False
  end
  /\ stack_offline network [1; 2; -3; 4; 5]%Z = [210; 3721; 5770; 577]%Z /\ stack_offline network [7; 8; 9; 6]%Z = [10670; 7967; 788]%Z.
Proof. split; [vm_compute; reflexivity|]. split; vm_compute; reflexivity. Qed.

(* ---- assumptions *)
Print Assumptions C51_end_to_end.

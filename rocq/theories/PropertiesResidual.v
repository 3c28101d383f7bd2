(** Theorems of record: residual connections around streaming convolutions (C86). *)

From Coq Require Import String List ZArith Bool Lia.
From Verif Require Import Py Meta Pad Conv ConvSpec Residual ResidualSpec ResidualProofs.
Import ListNotations.
Open Scope string_scope.
Open Scope list_scope.
Open Scope nat_scope.

(** A kernel of width 3 with one column of padding: reads its columns as digits. *)
Definition res_cfg : conv_cfg Z := mkCfg 3 1 1 1 (fun l => fold_left (fun a v => (10 * a + v)%Z) l 0%Z) 0%Z 0%Z.
Definition res_chunk (i : string) (s e : bool) (d : list Z) : chunk Z := mkChunk i s e d 0%Z.

(** If no padding is used, or every row of the tensor is a whole stream, the sum is the one of the unmodified network. *)
Theorem C86_whole_streams : forall (V : Type) (plus : V -> V -> V) (c : conv_cfg V) (st : buffers V) (t : tens V),
  valid_cfg c -> same_size c ->
  padn c = 0 \/ (forall r, In r (trows t) -> csos r = true /\ ceos r = true) ->
  trows t <> [] -> longest (trows t) <= tw t -> 0 < tw t -> th t = false ->
  exists st', residual_call plus c st (tensor_of (zin c) t)
    = Ok (tensor_of (plus (zin c) (zout c))
            (mkTens (tw t) (th t) (map (fun r => set_data r (offline_residual plus c (cdat r))) (trows t))), st').
Proof. intros V. exact residual_aligned. Qed.

Example C86_whole_streams_example :
  match residual_call Z.add res_cfg no_buffers
          (tensor_of 0%Z (mkTens 3 false [res_chunk "a" true true [1; 2; 3]%Z; res_chunk "b" true true [4; 5]%Z])) with
  | Ok (s, _) => bd s = [[13; 125; 233]; [49; 455; 0]]%Z /\ lens (bm s) = [3; 2]%Z
  | _ => False
  end.
Proof. vm_compute. auto. Qed.

(** Streams that start together and do not end at once: an error unless the tensor has exactly one column more than the
    padding. *)
Theorem C86_first_chunks : forall (V : Type) (plus : V -> V -> V) (c : conv_cfg V) (st : buffers V) (t : tens V),
  valid_cfg c -> same_size c -> 0 < padn c ->
  trows t <> [] -> tight t -> (forall r, In r (trows t) -> csos r = true /\ ceos r = false) ->
  tw t <> padn c + 1 -> residual_call plus c st (tensor_of (zin c) t) = Err RuntimeError.
Proof. intros V. exact residual_first. Qed.

Example C86_first_chunks_example :
  residual_call Z.add res_cfg no_buffers (tensor_of 0%Z (mkTens 3 false [res_chunk "a" true false [1; 2; 3]%Z])) = Err RuntimeError /\
  match residual_call Z.add res_cfg no_buffers (tensor_of 0%Z (mkTens 2 false [res_chunk "a" true false [1; 2]%Z])) with
  | Ok (s, _) => bd s = [[13; 14]]%Z /\ lens (bm s) = [1]%Z
  | _ => False
  end.
Proof. vm_compute. auto. Qed.

(** No run gets to the end of a stream that was cut into chunks. *)
Theorem C86_cut_streams_refused : forall (V : Type) (plus : V -> V -> V) (c : conv_cfg V) sched ss st',
  valid_cfg c -> same_size c -> 0 < padn c ->
  good_schedule (map trows sched) -> Forall (fits c) sched -> unnumbered sched ->
  residual_run plus c no_buffers (map (tensor_of (zin c)) sched) = Ok (ss, st') ->
  forall i l1 l l2, stream_of i (map trows sched) = l1 ++ l ++ l2 -> complete l -> length l = 1.
Proof. intros V. exact residual_cut. Qed.

Example C86_cut_streams_refused_example :
  residual_run Z.add res_cfg no_buffers
    (map (tensor_of 0%Z) [mkTens 2 false [res_chunk "a" true false [1; 2]%Z]; mkTens 2 false [res_chunk "a" false true [3; 4]%Z]])
    = Err RuntimeError /\
  match residual_run Z.add res_cfg no_buffers
    (map (tensor_of 0%Z) [mkTens 2 false [res_chunk "a" true true [1; 2]%Z]; mkTens 2 false [res_chunk "a" true true [3; 4]%Z]]) with
  | Ok (ss, _) => map bd ss = [[[13; 122]]; [[37; 344]]]%Z
  | _ => False
  end.
Proof. vm_compute. auto. Qed.

(** What is added to the columns of a chunk in the middle of a stream: the convolution as it was [padn c] columns
    earlier. *)
Theorem C86_lag : forall (V : Type) (plus : V -> V -> V) (c : conv_cfg V) sched ss st',
  valid_cfg c -> same_size c -> 0 < padn c ->
  good_schedule (map trows sched) -> Forall (fits c) sched -> unnumbered sched ->
  residual_run plus c no_buffers (map (tensor_of (zin c)) sched) = Ok (ss, st') ->
  forall k t s j r l1 l, nth_error sched k = Some t -> nth_error ss k = Some s -> nth_error (trows t) j = Some r ->
    csos r = false -> ceos r = false ->
    stream_of (cid r) (map trows (firstn k sched)) = l1 ++ l -> running l ->
    exists row, nth_error (bd s) j = Some row /\
      firstn (length (cdat r)) row
      = skip_sum plus (cdat r) (skipn (length (data_of l) - padn c) (conv_seq c (zeros c ++ data_of l ++ cdat r))).
Proof. intros V. exact residual_lag. Qed.

Definition res_lagging : list (tens Z) :=
  [mkTens 2 false [res_chunk "a" true false [1; 2]%Z]; mkTens 2 false [res_chunk "a" false false [3; 4]%Z];
   mkTens 1 false [res_chunk "a" false false [5]%Z]].

(** The third column of the stream is 3 and the convolution there is 234; the sum is 3 + 123. *)
Example C86_lag_example :
  match residual_run Z.add res_cfg no_buffers (map (tensor_of 0%Z) res_lagging) with
  | Ok (ss, _) => map bd ss = [[[13; 14]]; [[126; 238]]; [[350]]]%Z /\ map (fun s => lens (bm s)) ss = [[1]; [2]; [1]]%Z
  | _ => False
  end
  /\ offline_residual Z.add res_cfg [1; 2; 3; 4; 5]%Z = [13; 125; 237; 349; 455]%Z.
Proof. vm_compute. auto. Qed.

(** The residual connection of the unmodified network is not computed in streaming mode, and no error is raised: at every
    column but the first the sums of a run of chunks that go on differ from it. *)
Theorem C86_residual_refuted : exists (c : conv_cfg Z) (sched : list (tens Z)) (ss : list (batch Z)) (st' : buffers Z),
  valid_cfg c /\ same_size c /\ good_schedule (map trows sched) /\ Forall (fits c) sched /\ unnumbered sched /\
  residual_run Z.add c no_buffers (map (tensor_of (zin c)) sched) = Ok (ss, st') /\
  running (stream_of "a" (map trows sched)) /\
  forall n u v, 0 < n ->
    nth_error (List.concat (map (fun s => nth 0 (bd s) []) ss)) n = Some u ->
    nth_error (offline_residual Z.add c (data_of (stream_of "a" (map trows sched)))) n = Some v ->
    u <> v.
Proof.
  exists res_cfg, res_lagging.
  destruct (residual_run Z.add res_cfg no_buffers (map (tensor_of (zin res_cfg)) res_lagging)) as [[ss st']|] eqn:E.
  - exists ss, st'. 
    assert (Hs : map bd ss = [[[13; 14]]; [[126; 238]]; [[350]]]%Z).
    { pose proof C86_lag_example as [H _]. change (zin res_cfg) with 0%Z in E. rewrite E in H. apply H. }
    split; [vm_compute; lia|]. split; [split; reflexivity|]. split; [|split; [|split; [|split; [reflexivity|split]]]].
    + split.
      * constructor; [|constructor; [|constructor; [|constructor]]]; (split; [discriminate|]); (split; [constructor; [intros []|constructor]|]);
          (constructor; [|constructor]); intros [H|H]; discriminate.
      * intros i. unfold stream_of, res_lagging. cbn [map trows List.concat app filter res_chunk cid].
        destruct (String.eqb "a" i); cbn; auto.
    + constructor; [|constructor; [|constructor; [|constructor]]]; (apply ConvRunProofs.tight_fits; [discriminate|vm_compute; reflexivity]).
    + repeat constructor.
    + split; [discriminate|]. intros [|[|[|k]]] r H; cbn in H; try (inversion H; subst; split; reflexivity). destruct k; discriminate.
    + intros n u v Hn Hu Hv.
      assert (Hc : List.concat (map (fun s => nth 0 (bd s) []) ss) = [13; 14; 126; 238; 350]%Z).
      { rewrite <- (map_map bd (fun b => nth 0 b [])), Hs. reflexivity. }
      rewrite Hc in Hu.
      change (nth_error [13; 125; 237; 349; 455]%Z n = Some v) in Hv.
      destruct n as [|[|[|[|[|n]]]]]; cbn in Hu, Hv; try lia; try (inversion Hu; inversion Hv; subst; lia). destruct n; discriminate.
  - exfalso. pose proof C86_lag_example as [H _]. change (zin res_cfg) with 0%Z in E. rewrite E in H. exact H.
Qed.

(* ---- assumptions *)
Print Assumptions C86_whole_streams.
Print Assumptions C86_first_chunks.
Print Assumptions C86_cut_streams_refused.
Print Assumptions C86_lag.
Print Assumptions C86_residual_refuted.

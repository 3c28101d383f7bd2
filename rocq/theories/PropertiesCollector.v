(** Theorems of record: OutputCollector (C38, C39). *)

From Coq Require Import String List ZArith Bool Lia.
From Coq Require Import ZifyBool.
From Verif Require Import Py Meta MetaSpec MetaProofs Pad ConvSpec Collector CollectorSpec CollectorProofs.
Import ListNotations.
Open Scope string_scope.
Open Scope list_scope.
Open Scope nat_scope.

Definition chk (i : string) (s e : bool) (d : list Z) : chunk Z := mkChunk i s e d 0%Z.

(** Two streams; the second batch has spare columns and an empty row, the last chunk comes without batch dimension. *)
Definition deliveries : list (delivery Z) :=
  [ DBatch 2 [chk "a" true false [1; 2]%Z; chk "b" true false [7]%Z];
    DBatch 4 [chk "b" false true [8; 9]%Z; chk "a" false false []];
    DSingle (chk "a" false true [3]%Z) ].
Lemma deliveries_ok : Forall wide_enough deliveries /\ forall i, conforming (stream_of i (map delivered deliveries)).
Proof.
  split; [repeat constructor|]. intros i. unfold deliveries, stream_of. cbn [map delivered List.concat app filter cdat chk length Nat.eqb negb cid].
  destruct (String.eqb_spec "a" i), (String.eqb_spec "b" i); subst; try congruence;
    intros [|[|k]] r H; cbn in H; try (destruct k; discriminate H); try discriminate H; inversion H; subst; split; cbn; auto; discriminate.
Qed.

(* ---------- C38 ---------- *)

(** Chunks of a batch that are empty are ignored; the others (and chunks delivered without batch dimension) must
    conform to the protocol. *)
Theorem C38_reassembles : forall (V : Type) (z : V) h (ds : list (delivery V)), Forall wide_enough ds ->
  (forall i, conforming (stream_of i (map delivered ds))) ->
  exists st, update new_collector (map (as_input z h) ds) = (st, None) /\
    forall i, let l := stream_of i (map delivered ds) in
      (l = [] -> entries st i = None) /\
      (forall x, entries st i = Some x <-> joined h l x) /\
      (closed st i = true <-> exists r, In r l /\ ceos r = true).
Proof. intros V. exact collects. Qed.

Example C38_example : exists st, update new_collector (map (as_input 0%Z false) deliveries) = (st, None) /\
  entries st "a" = Some (mkSingle [1; 2; 3]%Z (mkMeta ["a"] [true] [true] [3%Z] None)) /\
  entries st "b" = Some (mkSingle [7; 8; 9]%Z (mkMeta ["b"] [true] [true] [3%Z] None)) /\
  entries st "c" = None.
Proof. eexists. split; [vm_compute; reflexivity|]. repeat split; vm_compute; reflexivity. Qed.

(** The restriction to non-empty chunks is needed: an empty first chunk is skipped, and its stream then rejected. *)
Theorem C38_empty_first_chunk_refuted :
  (exists st, update new_collector (map (as_input 0%Z false)
     [DBatch 1 [chk "a" true false []; chk "b" true false [7]%Z]; DBatch 1 [chk "a" false true [1]%Z]]) = (st, Some ValueError)) /\
  (forall k r, nth_error [chk "a" true false []; chk "a" false true [1]%Z] k = Some r -> csos r = (k =? 0) /\ ceos r = (S k =? 2)).
Proof.
  split; [eexists; vm_compute; reflexivity|]. intros [|[|k]] r H; cbn in H; try (destruct k; discriminate H); inversion H; subst; auto.
Qed.

(** An empty last chunk is skipped too, so the stream is never closed. *)
Theorem C38_empty_last_chunk_refuted : exists st, update new_collector (map (as_input 0%Z false)
     [DBatch 1 [chk "a" true false [1]%Z]; DBatch 0 [chk "a" false true []]]) = (st, None) /\
  closed st "a" = false /\ exists x, entries st "a" = Some x /\ eos (sm x) = [false].
Proof. eexists. split; [vm_compute; reflexivity|]. split; [reflexivity|]. eexists. split; vm_compute; reflexivity. Qed.

(* ---------- C39 ---------- *)

Theorem C39_closed_id_rejected : forall (V : Type) h (st : collector V) (r : chunk V),
  closed st (cid r) = true -> update_unary st (single_tensor h r) = (st, Some ValueError).
Proof. intros V. exact reject_closed. Qed.

(** A second start of an open id or a non-starting chunk of an unknown id. The collected data stays as it is; the set of
    closed ids is unchanged unless the rejected chunk has eos (so the last part of the claim is only partly true). *)
Theorem C39_wrong_start_rejected_partial : forall (V : Type) h (st : collector V) (r : chunk V),
  closed st (cid r) = false -> (csos r = true <-> entries st (cid r) <> None) ->
  exists st', update_unary st (single_tensor h r) = (st', Some ValueError) /\
    entries st' = entries st /\ (forall j, closed st' j = closed st j || (String.eqb j (cid r) && ceos r)).
Proof. intros V. exact reject_flags. Qed.

(** Whatever is passed in, an exception leaves the collected data unchanged. *)
Theorem C39_entries_survive_errors : forall (V : Type) (st : collector V) x st' e,
  update_unary st x = (st', Some e) -> entries st' = entries st.
Proof. intros V. exact reject_keeps_entries. Qed.

(** A tensor without batch dimension must describe one stream; otherwise nothing changes. *)
Theorem C39_one_stream : forall (V : Type) (st : collector V) x,
  (length (ids (sm x)) <> 1 -> update st [InSingle x] = (st, Some AssertionError)) /\
  (length (ids (sm x)) = 1 -> update st [InSingle x] = update_unary st x).
Proof.
  intros V st x. cbn [update update_one]. split; intros H.
  - apply Nat.eqb_neq in H. now rewrite H.
  - apply Nat.eqb_eq in H. rewrite H. now destruct (update_unary st x) as [st1 [e|]].
Qed.
Example C39_one_stream_example :
  snd (update (@new_collector Z) [InSingle (mkSingle [5]%Z (mkMeta [] [] [] [] None))]) = Some AssertionError /\
  snd (update (@new_collector Z) [InSingle (mkSingle [5]%Z (mkMeta ["a"; "b"] [true; true] [false; false] [1; 1]%Z None))]) = Some AssertionError /\
  snd (update (@new_collector Z) [InSingle (mkSingle [5]%Z (mkMeta ["a"] [true] [false] [1]%Z None))]) = None.
Proof. split; [|split]; vm_compute; reflexivity. Qed.

(** An entry with spare columns behind its length, which a tensor without batch dimension can have, cannot be continued: the
    next chunk of the open stream is refused. *)
Theorem C39_padded_entry : forall (V : Type) (st : collector V) h (old : single V) (r : chunk V) n,
  closed st (cid r) = false -> entries st (cid r) = Some old -> lens (sm old) = [n] -> (n < zlen (sd old))%Z -> csos r = false ->
  snd (update st [InSingle (single_tensor h r)]) = Some NotImplementedError.
Proof.
  intros V st h old r n Hc He Hl Hn Hs.
  assert (G : snd (update_unary st (single_tensor h r)) = Some NotImplementedError).
  { unfold update_unary. unfold single_tensor. cbn [sm ids sos eos item]. rewrite Hc, Hs.
    replace (entries (if ceos r then close st (cid r) else st) (cid r)) with (Some old) by (destruct (ceos r); cbn; congruence).
    unfold cat_two. rewrite Hl. cbn. destruct (Z.ltb_spec n (zlen (sd old))); [reflexivity|lia]. }
  rewrite (proj2 (C39_one_stream V st (single_tensor h r))) by reflexivity. exact G.
Qed.
Example C39_padded_entry_example :
  snd (update (@new_collector Z) [InSingle (mkSingle [5; 0]%Z (mkMeta ["a"] [true] [false] [1]%Z None)); InSingle (single_tensor false (chk "a" false true [2]%Z))])
  = Some NotImplementedError /\
  snd (update (@new_collector Z) [InSingle (mkSingle [5]%Z (mkMeta ["a"] [true] [false] [1]%Z None)); InSingle (single_tensor false (chk "a" false true [2]%Z))])
  = None.
Proof. split; vm_compute; reflexivity. Qed.

(** After a conforming history exactly the chunks that keep it conforming are accepted. *)
Theorem C39_accepts_exactly_conforming : forall (V : Type) (z : V) h (ds : list (delivery V)) st (r : chunk V),
  Forall wide_enough ds -> (forall i, conforming (stream_of i (map delivered ds))) ->
  update new_collector (map (as_input z h) ds) = (st, None) ->
  (conforming (stream_of (cid r) (map delivered ds) ++ [r]) -> exists st', update_unary st (single_tensor h r) = (st', None)) /\
  (~ conforming (stream_of (cid r) (map delivered ds) ++ [r]) ->
     exists st', update_unary st (single_tensor h r) = (st', Some ValueError)).
Proof. intros V. exact accepts_iff. Qed.

Example C39_example : exists st, update new_collector (map (as_input 0%Z false) (firstn 2 deliveries)) = (st, None) /\
  snd (update_unary st (single_tensor false (chk "b" false false [1]%Z))) = Some ValueError /\
  snd (update_unary st (single_tensor false (chk "a" true false [1]%Z))) = Some ValueError /\
  snd (update_unary st (single_tensor false (chk "c" false false [1]%Z))) = Some ValueError /\
  snd (update_unary st (single_tensor false (chk "c" true false [1]%Z))) = None.
Proof. eexists. split; [vm_compute; reflexivity|]. repeat split; vm_compute; reflexivity. Qed.

(** A rejected chunk with eos closes the id: the stream that is still open can no longer be continued. *)
Theorem C39_rejected_chunk_closes_refuted : exists (st st' : collector Z),
  update new_collector (map (as_input 0%Z false) [DSingle (chk "a" true false [1]%Z)]) = (st, None) /\
  update_unary st (single_tensor false (chk "a" true true [5]%Z)) = (st', Some ValueError) /\
  snd (update_unary st (single_tensor false (chk "a" false true [2]%Z))) = None /\
  snd (update_unary st' (single_tensor false (chk "a" false true [2]%Z))) = Some ValueError.
Proof. do 2 eexists. split; [vm_compute; reflexivity|]. split; [vm_compute; reflexivity|]. split; vm_compute; reflexivity. Qed.

(* ---- assumptions *)
Print Assumptions C38_reassembles.
Print Assumptions C38_empty_first_chunk_refuted.
Print Assumptions C38_empty_last_chunk_refuted.
Print Assumptions C39_closed_id_rejected.
Print Assumptions C39_wrong_start_rejected_partial.
Print Assumptions C39_entries_survive_errors.
Print Assumptions C39_one_stream.
Print Assumptions C39_padded_entry.
Print Assumptions C39_accepts_exactly_conforming.
Print Assumptions C39_rejected_chunk_closes_refuted.

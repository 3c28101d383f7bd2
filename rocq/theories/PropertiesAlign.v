(** Theorems of record: data and metadata of named StreamTensors agree after any computation. *)

From Coq Require Import String List ZArith Bool Lia Permutation.
From Coq Require Import ZifyBool.
From Verif Require Import Py Meta MetaSpec Named NamedSpec NamedProofs NamedIndexProofs NamedGetProofs NamedOpsProofs Dispatch FullIndex FullIndexSpec
  AlignSpec AlignProofs AlignOpProofs AlignCatProofs AlignBlockProofs AlignPointProofs.
Import ListNotations.
Open Scope string_scope.
Open Scope list_scope.
Open Scope Z_scope.

(* ------------------------------------------------------------------ C53 *)

(** Whatever is computed from tensors whose metadata tell the truth, by any number of indexing, narrowing, selecting,
    dropping, reshaping, splitting and joining operations and element-wise functions, has metadata that tell the truth: exactly the first lengths[b]
    steps of row b are data, they belong to stream ids[b], and they are in the order in which they were recorded. *)
Theorem C53_computed : forall (V : Type) (real : V -> bool) (owner : V -> string) (time : V -> Z)
    (given : @stensor V -> Prop) (y : @stensor V),
  (forall x, given x -> aligned real owner time x) -> built real owner time given y -> aligned real owner time y.
Proof. intros V real owner time given y. apply built_aligned. Qed.

(** Values that know what they are: padding, or step t of stream s. *)
Definition value : Type := option (string * Z).
Definition v_real (v : value) : bool := match v with Some _ => true | None => false end.
Definition v_owner (v : value) : string := match v with Some (s, _) => s | None => "" end.
Definition v_time (v : value) : Z := match v with Some (_, t) => t | None => 0 end.
(** The streams [rs], recorded from time [t0] on, padded to [T] steps, with [F] features. *)
Definition recorded (c : bool) (rs : list row) (F T t0 : Z) : @stensor value :=
  mkSt (mkTn [zlen rs; F; T]
          (fun ix => match ix with
                     | [b; f; t] => match nth_error rs (Z.to_nat b) with
                                    | Some r => if t <? rlen r then Some (rid r, t0 + t) else None
                                    | None => None
                                    end
                     | _ => None
                     end))
       [Some "B"; Some "F"; Some "L"] (of_rows c rs).

(** The hypothesis holds of every freshly recorded and padded batch. *)
Theorem C53_recorded : forall c rs F T t0, nonneg rs -> Forall (fun r => rlen r <= T) rs -> 0 <= F -> 0 <= T ->
  aligned v_real v_owner v_time (recorded c rs F T t0).
Proof.
  intros c rs F T t0 Hn Hf HF HT. exists 0%nat, 2%nat, c, rs, T.
  assert (RG : forall ix, in_range (shp (tn (recorded c rs F T t0))) ix -> exists b f t, ix = [b; f; t] /\ 0 <= b < zlen rs).
  { intros ix R. cbn in R. inversion R as [|? b ? ix1 Hb R1]; subst. inversion R1 as [|? f ? ix2 Hff R2]; subst.
    inversion R2 as [|? t ? ix3 Ht R3]; subst. inversion R3; subst. exists b, f, t. auto. }
  constructor.
  - constructor; try reflexivity; auto.
    + intros i j s Hi Hj. cbn in Hi, Hj. destruct i as [|[|[|i]]]; destruct j as [|[|[|j]]]; cbn in Hi, Hj; auto; try congruence;
        solve [destruct i; discriminate | destruct j; discriminate].
    + cbn. constructor; [unfold zlen; lia|]. constructor; [auto|]. constructor; auto.
  - intros ix r R E. destruct (RG ix R) as (b & f & t & -> & Hb). cbn in E |- *. rewrite E. now destruct (t <? rlen r).
  - intros ix r R E. destruct (RG ix R) as (b & f & t & -> & Hb). cbn in E |- *. rewrite E. destruct (t <? rlen r); [reflexivity|discriminate].
  - intros ix jx R1 R2 HS HL. destruct (RG ix R1) as (b & f & t & -> & Hb). destruct (RG jx R2) as (b' & f' & t' & -> & Hb').
    assert (b = b') by (apply (HS 0%nat); lia). subst b'. cbn in HL |- *.
    destruct (nth_error rs (Z.to_nat b)) as [r|]; [|discriminate]. destruct (t <? rlen r); [|discriminate]. destruct (t' <? rlen r); [|discriminate].
    cbn. lia.
Qed.

(** A computation: two chunks of two streams, the second padded, are joined along length; the steps from 1 on are taken,
    the streams exchanged, and batch and length exchanged. *)
Definition a_chunk1 := recorded true [mkRow "a" true false 2 1; mkRow "b" true false 2 1] 1 2 0.
Definition a_chunk2 := recorded true [mkRow "a" false true 1 2; mkRow "b" false true 2 2] 1 2 2.
Definition a_get (r : res (@stensor value)) : @stensor value := match r with Ok y => y | Err _ => a_chunk1 end.
Definition a_joined : @stensor value :=
  match cat [OStream a_chunk1; OStream a_chunk2] 2 with Ok (OStream y) => y | _ => a_chunk1 end.
Definition a_late := a_get (getitem a_joined (Tuple [IEll; ISlice (mkSlice (Some 1) None None)])).
Definition a_swapped := a_get (index_select a_late 0 (IxVec [1; 0])).
Definition a_last := a_get (permute a_swapped [2; 1; 0]).
Example C53_ex :
  (shp (tn a_last), names a_last, smeta a_last) =
    ([3; 1; 2], [Some "L"; Some "F"; Some "B"], of_rows true [mkRow "b" false true 3 2; mkRow "a" false true 2 2]) /\
  map (fun b => map (fun t => at_ (tn a_last) [t; 0; b]) [0; 1; 2]) [0; 1] =
    [[Some ("b", 1); Some ("b", 2); Some ("b", 3)]; [Some ("a", 1); Some ("a", 2); None]].
Proof. split; vm_compute; reflexivity. Qed.
Example C53_ex_built : built v_real v_owner v_time (fun x => x = a_chunk1 \/ x = a_chunk2) a_last.
Proof.
  assert (ND : forall l : list dname, names_dup l = false -> names_distinct l) by (intros l; apply names_dup_false).
  apply (Bu_op _ _ _ _ a_swapped).
  2:{ apply (Op_permute _ _ [2; 1; 0]). vm_compute. reflexivity. }
  apply (Bu_op _ _ _ _ a_late).
  2:{ apply (Op_index_select _ _ 0 2 true [mkRow "a" false true 2 2; mkRow "b" false true 3 2] 3 0 [1; 0]).
      - constructor; try (vm_compute; reflexivity).
        + apply ND. vm_compute. reflexivity.
        + vm_compute. constructor; [discriminate|]. constructor; [discriminate|]. constructor; [discriminate|]. constructor.
        + constructor; [cbn; lia|]. constructor; [cbn; lia|]. constructor.
        + constructor; [cbn; lia|]. constructor; [cbn; lia|]. constructor.
      - vm_compute. lia.
      - discriminate.
      - vm_compute. reflexivity. }
  apply (Bu_op _ _ _ _ a_joined).
  2:{ apply (Op_getitem _ _ 0 2 true [mkRow "a" true true 3 2; mkRow "b" true true 4 2] 4 (Tuple [IEll; ISlice (mkSlice (Some 1) None None)])
        [all_item; all_item; ISlice (mkSlice (Some 1) None None)] [Full; Full; Keep [1; 2; 3]]).
      - constructor; try (vm_compute; reflexivity).
        + apply ND. vm_compute. reflexivity.
        + vm_compute. constructor; [discriminate|]. constructor; [discriminate|]. constructor; [discriminate|]. constructor.
        + constructor; [cbn; lia|]. constructor; [cbn; lia|]. constructor.
        + constructor; [cbn; lia|]. constructor; [cbn; lia|]. constructor.
      - apply (S_ell 3 [] [ISlice (mkSlice (Some 1) None None)]); [intros []|intros [H|[]]; discriminate|vm_compute; lia|left; discriminate].
      - vm_compute. lia.
      - change (shp (tn a_joined)) with [2; 1; 4]. constructor; [constructor|]. constructor; [constructor|]. constructor; [|constructor].
        change [1; 2; 3] with (slice_positions 4 (Some 1) None 1). constructor. left. discriminate.
      - intros p. discriminate.
      - intros p. discriminate.
      - right. exists 4. split.
        + split; [exists (mkRow "b" true true 4 2); split; [right; now left|reflexivity]|].
          intros r [<-|[<-|[]]]; cbn; lia.
        + split; [left; split; cbn; lia|vm_compute; discriminate].
      - vm_compute. reflexivity. }
  apply (Bu_length _ _ _ _ a_chunk1 a_chunk2 [] 2 2).
  - intros x [<-|[<-|[]]]; apply Bu_given; auto.
  - split; [reflexivity|]. split; [cbn; lia|]. constructor; [|constructor]. split; [reflexivity|].
    exists [2; 1], 2, 2, []. cbn. split; [reflexivity|]. split; [reflexivity|]. split; [reflexivity|]. lia.
  - split; [cbn; lia|]. left. reflexivity.
  - reflexivity.
  - discriminate.
  - intros j j' x x' ix jx Ej Ej' Hlt R1 R2 HS H1 H2.
    destruct j as [|j]; [|destruct j as [|j]; [|destruct j; discriminate]; destruct j' as [|[|j']]; try lia; destruct j'; discriminate].
    destruct j' as [|[|j']]; [lia| |destruct j'; discriminate]. cbn in Ej, Ej'. injection Ej as <-. injection Ej' as <-.
    cbn in R1, R2. inversion R1 as [|? b ? i1 Hb R1']; subst. inversion R1' as [|? f ? i2 Hf R1'']; subst. inversion R1'' as [|? t ? i3 Ht R1''']; subst. inversion R1'''; subst.
    inversion R2 as [|? b' ? j1 Hb' R2']; subst. inversion R2' as [|? f' ? j2 Hf' R2'']; subst. inversion R2'' as [|? t' ? j3 Ht' R2''']; subst. inversion R2'''; subst.
    cbn [tn a_chunk1 a_chunk2 recorded at_] in *.
    destruct (nth_error _ (Z.to_nat b)) as [r|]; [|discriminate]. destruct (t <? rlen r); [|discriminate].
    destruct (nth_error _ (Z.to_nat b')) as [r'|]; [|discriminate]. destruct (t' <? rlen r'); [|discriminate]. cbn [v_time]. lia.
  - vm_compute. reflexivity.
Qed.

(** An element-wise function: the value is data if all operands are, of the first operand's stream and time. *)
Definition v_sum (ix : list Z) (vs : list value) : value :=
  if forallb v_real vs then Some (v_owner (hd None vs), v_time (hd None vs)) else None.
Lemma v_sum_lawful : lawful v_real v_owner v_time v_sum.
Proof.
  constructor.
  - intros ix vs. unfold v_sum. now destruct (forallb v_real vs).
  - intros ix v vs H _. unfold v_sum. now rewrite H.
  - intros ix jx vs ws Hv Hw HF. unfold v_sum. rewrite Hv, Hw. destruct HF; cbn; [lia|auto].
Qed.
(** torch.add on two tensors, the second of which has one feature only. *)
Definition t_sum (t1 t2 : @tensor value) : @tensor value :=
  mkTn (shp t1) (fun ix => v_sum ix [at_ t1 (pulled (shp t1) ix); at_ t2 (pulled (shp t2) ix)]).
Definition impl_sum : @raw value := fun args kw => match args with [RT t1 n1; RT t2 _] => Ok (RTen (t_sum t1 t2) n1) | _ => Err TypeError end.
Definition a_wide := recorded false [mkRow "a" false true 1 2; mkRow "b" false true 2 2] 3 2 2.
Definition a_thin := recorded false [mkRow "a" false true 1 2; mkRow "b" false true 2 2] 1 2 2.
Definition a_sum : @stensor value :=
  match torch_function (fun _ _ _ => Err Undefined) "add" impl_sum [AStream a_wide; AStream a_thin] [] with Ok (DStream y) => y | _ => a_chunk1 end.
Example C53_ex_sum :
  (shp (tn a_sum), names a_sum, smeta a_sum) = ([2; 3; 2], [Some "B"; Some "F"; Some "L"], of_rows false [mkRow "a" false true 1 2; mkRow "b" false true 2 2]) /\
  map (fun b => map (fun t => at_ (tn a_sum) [b; 2; t]) [0; 1]) [0; 1] = [[Some ("a", 2); None]; [Some ("b", 2); Some ("b", 3)]].
Proof. split; vm_compute; reflexivity. Qed.
Example C53_ex_sum_built : built v_real v_owner v_time (fun x => x = a_wide \/ x = a_thin) a_sum.
Proof.
  assert (ND : forall l : list dname, names_dup l = false -> names_distinct l) by (intros l; apply names_dup_false).
  apply (Bu_elementwise _ _ _ _ (fun _ _ _ => Err Undefined) "add" impl_sum [AStream a_wide; AStream a_thin] [] false
           (t_sum (tn a_wide) (tn a_thin)) [Some "B"; Some "F"; Some "L"] v_sum).
  - intros x [<-|[<-|[]]]; apply Bu_given; auto.
  - right. intros x x' [<-|[<-|[]]] [<-|[<-|[]]]; split; reflexivity.
  - unfold torch_returns. change (handler_of "add") with HDefault. reflexivity.
  - intros _. split; [apply ND; vm_compute; reflexivity|]. intros x [<-|[<-|[]]]; (split; [reflexivity|]; intros k s H; exact H).
  - intros H x r _. discriminate H.
  - constructor.
    + discriminate.
    + intros x [<-|[<-|[]]]; reflexivity.
    + intros k n H. cbn in H. split.
      * intros x [<-|[<-|[]]]; destruct k as [|[|[|[|k]]]]; cbn in *; injection H as <- || discriminate; auto.
      * exists a_wide. split; [now left|exact H].
    + intros ix _. reflexivity.
  - apply v_sum_lawful.
  - vm_compute. reflexivity.
Qed.

(** Features looked up by an integer tensor of two dimensions, then two new dimensions: x[:, m] and x[:, None, None]. *)
Definition a_pair : @stensor value :=
  match x_getitem a_sum (XTuple (map Plain [all_item] ++ XInts (mkTn [2; 2] (fun ix => match ix with [i; j] => i + j | _ => 0 end)) :: map Plain [])) with
  | Ok (OStream y) => y | _ => a_chunk1 end.
Definition a_news := a_get (getitem a_pair (Tuple ([all_item] ++ repeat INone 2))).
Example C53_ex_ints :
  (shp (tn a_news), names a_news) = ([2; 1; 1; 2; 2; 2], [Some "B"; None; None; None; Some "F"; Some "L"]) /\
  map (fun b => map (fun t => at_ (tn a_news) [b; 0; 0; 1; 1; t]) [0; 1]) [0; 1] = [[Some ("a", 2); None]; [Some ("b", 2); Some ("b", 3)]].
Proof. split; vm_compute; reflexivity. Qed.
Example C53_ex_ints_built : op a_sum a_pair /\ op a_pair a_news.
Proof.
  assert (ND : forall l : list dname, names_dup l = false -> names_distinct l) by (intros l; apply names_dup_false).
  assert (NN : nonneg [mkRow "a" false true 1 2; mkRow "b" false true 2 2]).
  { constructor; [cbn; lia|]. constructor; [cbn; lia|]. constructor. }
  assert (NF : Forall (fun r => rlen r <= 2) [mkRow "a" false true 1 2; mkRow "b" false true 2 2]).
  { constructor; [cbn; lia|]. constructor; [cbn; lia|]. constructor. }
  split.
  - apply (Op_ints _ _ 0 2 false [mkRow "a" false true 1 2; mkRow "b" false true 2 2] 2 [all_item] [] [Full] [] [Full; Full; Full]
             (mkTn [2; 2] (fun ix => match ix with [i; j] => i + j | _ => 0 end)) [Some "B"] (Some "F") [] [Some "L"] [2] 3 [] [2]); try reflexivity.
    + constructor; try (vm_compute; reflexivity); auto.
      * vm_compute. constructor; [discriminate|]. constructor; [discriminate|]. constructor; [discriminate|]. constructor.
    + constructor; constructor.
    + constructor.
    + cbn; lia.
    + intros p R. cbn in R. inversion R as [|? i ? p1 Hi R1]; subst. inversion R1 as [|? j ? p2 Hj R2]; subst. inversion R2; subst. cbn. lia.
    + constructor; [lia|]. constructor; [lia|]. constructor.
    + discriminate.
    + discriminate.
    + intros p. discriminate.
    + intros p. discriminate.
    + left. reflexivity.
  - apply (Op_nones _ _ 0 3 false [mkRow "a" false true 1 2; mkRow "b" false true 2 2] 2 [all_item] [all_item; all_item; all_item; all_item] [Full; Full; Full; Full] 2).
    + constructor; try (vm_compute; reflexivity); auto.
      * vm_compute. constructor; [discriminate|]. constructor; [discriminate|]. constructor; [discriminate|]. constructor; [discriminate|]. constructor.
    + apply (S_plain 4 [all_item]); [intros [H|[]]; discriminate|cbn; lia|discriminate].
    + vm_compute. lia.
    + change (shp (tn a_pair)) with [2; 2; 2; 2]. constructor; [constructor|]. constructor; [constructor|]. constructor; [constructor|]. constructor; [constructor|]. constructor.
    + intros p. discriminate.
    + intros p. discriminate.
    + left. reflexivity.
    + vm_compute. reflexivity.
Qed.

(** A mask over the two feature dimensions picks the same entries of every stream and step. *)
Definition a_sq : @stensor value :=
  mkSt (mkTn [2; 2; 1; 2] (fun ix => match ix with [f; g; b; t] => Some ("a", t) | _ => None end)) [Some "F"; Some "G"; Some "B"; Some "L"]
       (of_rows true [mkRow "a" true false 2 0]).
Definition a_mask : @tensor bool := mkTn [2; 2] (fun ix => match ix with [f; g] => negb (f =? g) | _ => false end).
Definition a_masked : @stensor value := match x_getitem a_sq (XTuple (map Plain [] ++ [XMask a_mask])) with Ok (OStream y) => y | _ => a_chunk1 end.
Example C53_ex_mask : (shp (tn a_masked), names a_masked, smeta a_masked) = ([2; 1; 2], [Some "F_G"; Some "B"; Some "L"], smeta a_sq).
Proof. vm_compute. reflexivity. Qed.
Example C53_ex_mask_built : op a_sq a_masked.
Proof.
  assert (ND : forall l : list dname, names_dup l = false -> names_distinct l) by (intros l; apply names_dup_false).
  apply (Op_mask _ _ 2 3 true [mkRow "a" true false 2 0] 2 [] [] [Full; Full; Full; Full] a_mask ["F"; "G"] [] [Some "B"; Some "L"] [] [1; 2]); try reflexivity.
  - constructor; try (vm_compute; reflexivity); auto.
    + vm_compute. constructor; [discriminate|]. constructor; [discriminate|]. constructor; [discriminate|]. constructor; [discriminate|]. constructor.
    + constructor; [cbn; lia|]. constructor.
    + constructor; [cbn; lia|]. constructor.
  - constructor.
  - cbn; lia.
  - cbn; lia.
  - apply ND. vm_compute. reflexivity.
  - intros p. discriminate.
  - intros p. discriminate.
  - left. reflexivity.
Qed.

(** The operations left out of [op] do break the agreement. torch.transpose of batch and length leaves names and
    metadata as they were (C21): step 1 of stream "a" is taken for step 0 of stream "b". *)
Theorem C53_transpose_refuted :
  let x := mkSt (mkTn [2; 2] (fun ix => match ix with [b; t] => Some (if b =? 0 then "a" else "b", t) | _ => None end))
                [Some "B"; Some "L"] (of_rows false [mkRow "a" true false 2 0; mkRow "b" true false 2 0]) in
  exists y, torch_transpose x 0 1 = Ok y /\ names y = names x /\ smeta y = smeta x /\
    aligned v_real v_owner v_time x /\ ~ aligned v_real v_owner v_time y.
Proof.
  intros x. eexists. split; [vm_compute; reflexivity|]. split; [reflexivity|]. split; [reflexivity|]. split.
  - exists 0%nat, 1%nat, false, [mkRow "a" true false 2 0; mkRow "b" true false 2 0], 2.
    assert (RG : forall ix, in_range (shp (tn x)) ix -> exists b t, ix = [b; t] /\ 0 <= b < 2 /\ 0 <= t < 2).
    { intros ix R. cbn in R. inversion R as [|? b ? ix1 Hb R1]; subst. inversion R1 as [|? t ? ix2 Ht R2]; subst. inversion R2; subst. exists b, t. auto. }
    constructor.
    + constructor; try reflexivity.
      * apply names_dup_false. reflexivity.
      * cbn. constructor; [lia|]. constructor; [lia|]. constructor.
      * constructor; [cbn; lia|]. constructor; [cbn; lia|]. constructor.
      * constructor; [cbn; lia|]. constructor; [cbn; lia|]. constructor.
    + intros ix r R E. destruct (RG ix R) as (b & t & -> & Hb & Ht). cbn in E |- *.
      assert (b = 0 \/ b = 1) as [->| ->] by lia; cbn in E; injection E as <-; cbn; lia.
    + intros ix r R E _. destruct (RG ix R) as (b & t & -> & Hb & Ht). cbn in E |- *.
      assert (b = 0 \/ b = 1) as [->| ->] by lia; cbn in E; injection E as <-; reflexivity.
    + intros ix jx R1 R2 _ HL _ _. destruct (RG ix R1) as (b & t & -> & Hb & Ht). destruct (RG jx R2) as (b' & t' & -> & Hb' & Ht'). cbn in *. lia.
  - intros (bd & ld & c & rs & T & [SO AR AO AT]).
    assert (bd = 0%nat) by (apply (so_distinct _ _ _ _ _ _ SO _ _ "B"); [apply (so_bname _ _ _ _ _ _ SO)|reflexivity]). subst bd.
    pose proof (so_meta _ _ _ _ _ _ SO) as EM. cbn in EM. injection EM as E1 _ _ _ _.
    destruct rs as [|r0 rs]; [discriminate|]. cbn in E1. injection E1 as E0 _.
    specialize (AO [0; 1] r0). cbn in AO. rewrite <- E0 in AO. discriminate AO; auto.
    constructor; [lia|]. constructor; [lia|]. constructor.
Qed.

(** Nor may an operand that is no stream be larger than the streams: adding a plain tensor of two rows to a batch of one
    stream gives two rows of data and one row of metadata. *)
Theorem C53_broadcast_refuted :
  let x := recorded false [mkRow "a" true false 2 0] 1 2 0 in
  let big := mkTn [2; 1; 2] (fun _ => None) in
  let impl : @raw value := fun args kw => match args with [RT t n; RT u _] =>
      Ok (RTen (mkTn (shp u) (fun ix => at_ t (pulled (shp t) ix))) n) | _ => Err TypeError end in
  exists y, torch_function (fun _ _ _ => Err Undefined) "add" impl [AStream x; APlain big [None; None; None]] [] = Ok (DStream y) /\
    shp (tn y) = [2; 1; 2] /\ smeta y = smeta x /\ aligned v_real v_owner v_time x /\ ~ aligned v_real v_owner v_time y.
Proof.
  intros x big impl. eexists. split; [vm_compute; reflexivity|]. split; [reflexivity|]. split; [reflexivity|]. split.
  - apply C53_recorded; [constructor; [cbn; lia|constructor]|constructor; [cbn; lia|constructor]|lia|lia].
  - intros (bd & ld & c & rs & T & [SO AR AO AT]).
    assert (bd = 0%nat) by (apply (so_distinct _ _ _ _ _ _ SO _ _ "B"); [apply (so_bname _ _ _ _ _ _ SO)|reflexivity]). subst bd.
    pose proof (so_meta _ _ _ _ _ _ SO) as EM. cbn in EM. injection EM as E1 _ _ _ _.
    pose proof (so_bsize _ _ _ _ _ _ SO) as EB. cbn in EB. injection EB as EB.
    destruct rs as [|r0 [|r1 rs]]; discriminate.
Qed.

(** A function that nobody listed is treated as an element-wise one (tensor.py 807-814): max_pool1d with kernel size 2 halves
    the length dimension and keeps the metadata, which now promise more steps than there are. *)
Theorem C53_pool_refuted :
  let x := recorded false [mkRow "a" true false 2 0] 1 2 0 in
  let impl : @raw value := fun args kw => match args with [RT t n; RO 2] =>
      Ok (RTen (mkTn (firstn 2 (shp t) ++ [nth 2 (shp t) 0 / 2]) (fun ix => match ix with [b; f; i] => at_ t [b; f; 2 * i + 1] | _ => at_ t ix end)) n)
      | _ => Err TypeError end in
  exists y, torch_function (fun _ _ _ => Err Undefined) "nn.functional.max_pool1d" impl [AStream x; AOther 2] [] = Ok (DStream y) /\
    shp (tn y) = [1; 1; 1] /\ names y = names x /\ smeta y = smeta x /\ lens (smeta y) = [2] /\
    aligned v_real v_owner v_time x /\ ~ aligned v_real v_owner v_time y.
Proof.
  intros x impl. eexists. split; [vm_compute; reflexivity|]. do 4 (split; [reflexivity|]). split.
  - apply C53_recorded; [constructor; [cbn; lia|constructor]|constructor; [cbn; lia|constructor]|lia|lia].
  - intros (bd & ld & c & rs & T & [SO AR AO AT]).
    assert (ld = 2%nat) by (apply (so_distinct _ _ _ _ _ _ SO _ _ "L"); [apply (so_lname _ _ _ _ _ _ SO)|reflexivity]). subst ld.
    pose proof (so_meta _ _ _ _ _ _ SO) as EM. cbn in EM. injection EM as _ _ _ E1 _.
    pose proof (so_lsize _ _ _ _ _ _ SO) as EL. cbn in EL. injection EL as <-.
    destruct rs as [|r0 rs]; [discriminate|]. cbn in E1. injection E1 as E1 _.
    pose proof (Forall_inv (so_fit _ _ _ _ _ _ SO)) as HF. cbn in HF. lia.
Qed.

(* ---- assumptions *)
Print Assumptions C53_computed.
Print Assumptions C53_recorded.
Print Assumptions C53_transpose_refuted.
Print Assumptions C53_broadcast_refuted.
Print Assumptions C53_pool_refuted.

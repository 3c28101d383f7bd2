(** Proofs about take_along_dim as an override, take, scatter and decouple_recursive. *)

From Coq Require Import String List ZArith Bool Lia.
From Coq Require Import ZifyBool.
From Verif Require Import Py Meta MetaSpec MetaProofs MetaLenProofs Named NamedSpec NamedProofs NamedSelProofs
  NamedIndexProofs NamedMetaProofs NamedGetProofs NamedOpsProofs NamedShapeProofs NamedSplitProofs MetaBatchProofs Gather GatherSpec GatherProofs.
Import ListNotations.
Open Scope Z_scope.

Section Along.
Context {V : Type}.
Implicit Types (x y : @stensor V) (t : @tensor V).

(** C54: take_along_dim with an index that is not broadcast along batch and length. *)
Lemma take_along_ok x bd ld c rs T d k (ix : @tensor Z) : stream_ok x bd ld c rs T ->
  denotes (length (shp (tn x))) d k -> k <> bd -> k <> ld -> ix_broadcasts k (shp (tn x)) ix ->
  nth_error (shp ix) bd = Some (zlen rs) -> nth_error (shp ix) ld = Some T ->
  exists y, take_along_dim x d (mkIx ix false) = Ok y /\ names y = names x /\ gathered_bcast k (tn x) ix (tn y) /\ smeta y = smeta x.
Proof.
  intros H Hd Hkb Hkl Hi Hb Hn.
  destruct (torch_take_along_ok (tn x) k ix) as (t' & Ef & G); [apply Hd|exact (so_sizes _ _ _ _ _ _ H)|exact Hi|].
  assert (HT : 0 <= T) by exact (Forall_nth_error _ _ _ _ (so_sizes _ _ _ _ _ _ H) (so_lsize _ _ _ _ _ _ H)).
  destruct (gather_with_ok torch_take_along_dim x bd ld c rs T d k ix (zlen rs) T t') as (y & rs' & E & N & Et & M & _ & R); auto.
  { apply G. } { unfold zlen. lia. }
  exists y. split; [exact E|]. split; [exact N|]. split; [now rewrite Et|].
  rewrite M, R, (so_meta _ _ _ _ _ _ H) by reflexivity. now rewrite firstn_all2 by (unfold zlen; lia).
Qed.

(** The sizes of a result of torch.take_along_dim. *)
Lemma torch_take_along_sizes t k (ix : @tensor Z) t' : (k < length (shp t))%nat -> torch_take_along_dim t k ix = Ok t' ->
  length (shp ix) = length (shp t) /\ length (shp t') = length (shp t) /\
  (forall d m n, nth_error (shp ix) d = Some m -> nth_error (shp t) d = Some n ->
     exists r, nth_error (shp t') d = Some r /\ (d <> k -> bcast1 n m r)).
Proof.
  intros Hk E. unfold torch_take_along_dim, ndim in E.
  destruct (Nat.eqb (length (shp t)) (length (shp ix))) eqn:EL; [|discriminate]. cbn [negb] in E.
  destruct (bcast_sizes (list_set (shp t) k (size ix k)) (shp ix)) as [si|] eqn:E1; [|discriminate]. cbn [bind] in E.
  destruct (bcast_sizes (list_set (shp ix) k (size t k)) (shp t)) as [st|] eqn:E2; [|discriminate]. cbn [bind] in E.
  destruct (along_sizes t k ix si st Hk ltac:(lia) E1 E2) as (Ls & Lt & C & Sk).
  assert (shp t' = si) as ->.
  { unfold torch_gather in E. cbn [t_bcast shp] in E.
    destruct (is_empty si); [injection E as <-; reflexivity|].
    destruct (negb (fits_but k si st)); [discriminate|].
    match type of E with (if ?b then _ else _) = _ => destruct b end; [discriminate|]. injection E as <-. reflexivity. }
  split; [lia|]. split; [lia|]. intros d m n Em En. destruct (C d m n Em En) as (r & Er & _ & K2). exists r. split; [exact Er|].
  intros Hne. apply K2; auto.
Qed.

Lemma gather_with_inv f x d ix y : gather_with f x d (mkIx ix false) = Ok y ->
  exists k t', denotes (ndim (tn x)) d k /\ f (tn x) k ix = Ok t'.
Proof.
  unfold gather_with. cbn [ix_stream ix_tn]. intros E.
  destruct (norm_dim (ndim (tn x)) d) as [k|] eqn:Ek; [|discriminate]. cbn [bind] in E.
  destruct (f (tn x) k ix) as [t'|] eqn:Ef; [|discriminate].
  exists k, t'. split; [now apply norm_dim_denotes|exact Ef].
Qed.

(** An index broadcast along the batch or the length dimension. *)
Lemma take_along_cut x bd ld c rs T d (ix : @tensor Z) y b n : stream_ok x bd ld c rs T ->
  take_along_dim x d (mkIx ix false) = Ok y -> nth_error (shp ix) bd = Some b -> nth_error (shp ix) ld = Some n ->
  1 <= b -> 0 <= n -> rs <> [] ->
  exists rb rl rs', nth_error (shp (tn y)) bd = Some rb /\ bcast1 (zlen rs) b rb /\
    nth_error (shp (tn y)) ld = Some rl /\ bcast1 T n rl /\
    smeta y = of_rows c rs' /\ Forall2 (cut_row n) (firstn (Z.to_nat b) rs) rs'.
Proof.
  intros H E Hb Hn B1 N0 Hne. unfold take_along_dim in E. destruct (gather_with_inv _ _ _ _ _ E) as (k & t' & Hd & Ef).
  assert (Hkb : k <> bd).
  { intros ->. destruct (gather_with_refuses torch_take_along_dim x bd ld c rs T d bd (mkIx ix false) H Hd) as (e & E'); [auto|congruence]. }
  assert (Hkl : k <> ld).
  { intros ->. destruct (gather_with_refuses torch_take_along_dim x bd ld c rs T d ld (mkIx ix false) H Hd) as (e & E'); [auto|congruence]. }
  destruct (torch_take_along_sizes _ _ _ _ (proj1 Hd) Ef) as (L1 & L2 & C).
  destruct (C bd b _ Hb (so_bsize _ _ _ _ _ _ H)) as (rb & Erb & Brb).
  destruct (C ld n _ Hn (so_lsize _ _ _ _ _ _ H)) as (rl & Erl & Brl).
  destruct (gather_with_ok torch_take_along_dim x bd ld c rs T d k ix b n t') as (y' & rs' & E' & N & Et & M & F & R); auto; try lia.
  { right. destruct rs as [|r rs]; [congruence|]. replace (Z.to_nat b) with (S (Z.to_nat (b - 1))) by lia. discriminate. }
  rewrite E in E'. injection E' as <-. exists rb, rl, rs'. rewrite Et. repeat apply conj; auto.
Qed.

(** Wrong number of streams. *)
Lemma take_along_batch x bd ld c rs T d (ix : @tensor Z) y b n : stream_ok x bd ld c rs T ->
  take_along_dim x d (mkIx ix false) = Ok y -> nth_error (shp ix) bd = Some b -> nth_error (shp ix) ld = Some n ->
  1 <= b -> b <> zlen rs -> 0 <= n -> rs <> [] ->
  exists m, nth_error (shp (tn y)) bd = Some m /\ Z.of_nat (length (ids (smeta y))) < m.
Proof.
  intros H E Hb Hn B1 Bne N0 Hne.
  destruct (take_along_cut x bd ld c rs T d ix y b n H E Hb Hn B1 N0 Hne) as (rb & rl & rs' & E1 & C1 & _ & _ & M & F).
  exists rb. split; [exact E1|]. rewrite M. cbn. rewrite map_length. apply Forall2_len in F. rewrite firstn_length in F.
  assert (1 <= zlen rs) by (destruct rs; [congruence|unfold zlen; cbn; lia]). unfold zlen in *.
  inversion C1; subst; lia.
Qed.

(** Wrong lengths. *)
Lemma take_along_length x bd ld c rs T d (ix : @tensor Z) y b : stream_ok x bd ld c rs T ->
  take_along_dim x d (mkIx ix false) = Ok y -> nth_error (shp ix) bd = Some b -> nth_error (shp ix) ld = Some 1 ->
  1 <= b -> rs <> [] ->
  nth_error (shp (tn y)) ld = Some T /\ Forall (fun n => n <= 1) (lens (smeta y)).
Proof.
  intros H E Hb Hn B1 Hne.
  destruct (take_along_cut x bd ld c rs T d ix y b 1 H E Hb Hn B1 ltac:(lia) Hne) as (rb & rl & rs' & _ & _ & E2 & C2 & M & F).
  split; [rewrite E2; f_equal; inversion C2; subst; lia|].
  rewrite M. cbn. apply Forall_forall. intros m Hm. apply in_map_iff in Hm as (r & <- & Hr).
  clear - F Hr. induction F as [|r0 r0' l l' F0 F IH]; [destruct Hr|]. destruct Hr as [->|Hr]; [|auto].
  destruct F0 as (_ & _ & -> & _). lia.
Qed.

End Along.

(* ---------- scatter ---------- *)

Lemma all_positions_NoDup s : NoDup (all_positions s).
Proof.
  induction s as [|n s IH]; cbn [all_positions]; [constructor; [intros []|constructor]|].
  assert (Hd : NoDup (dim_positions n)).
  { unfold dim_positions. apply FinFun.Injective_map_NoDup; [intros a b; apply Nat2Z.inj|apply seq_NoDup]. }
  induction Hd as [|i l Hi Hd IHd]; cbn [flat_map]; [constructor|].
  assert (App : forall l1 l2 : list (list Z), NoDup l1 -> NoDup l2 -> (forall a, In a l1 -> ~ In a l2) -> NoDup (l1 ++ l2)).
  { clear. intros l1 l2 H1 H2 H. induction H1 as [|a l1 Ha H1 IH]; [exact H2|]. cbn. constructor.
    - intros Hin. apply in_app_or in Hin as [Hin|Hin]; [auto|]. apply (H a); [now left|exact Hin].
    - apply IH. intros b Hb. apply H. now right. }
  apply App; [|exact IHd|].
  - apply FinFun.Injective_map_NoDup; [intros a b E; now injection E|exact IH].
  - intros a Ha Hin. apply in_map_iff in Ha as (q & <- & _). apply in_flat_map in Hin as (j & Hj & Hq).
    apply in_map_iff in Hq as (q' & E & _). injection E as <- _. auto.
Qed.

Lemma list_eqb_Z a b : list_eqb Z.eqb a b = true <-> a = b.
Proof.
  revert b. induction a as [|x a IH]; intros [|y b]; cbn; split; intros H; try reflexivity; try discriminate.
  - apply andb_true_iff in H as [H1 H2]. f_equal; [lia|]. now apply IH.
  - injection H as -> ->. apply andb_true_intro. split; [lia|]. now apply IH.
Qed.

Lemma meta_eq_self m : chs m = None -> meta_eq m m = Ok true.
Proof.
  intros H. unfold meta_eq. rewrite H.
  assert (A : list_eqb String.eqb (ids m) (ids m) = true).
  { induction (ids m) as [|a l IH]; cbn; [reflexivity|]. now rewrite String.eqb_refl, IH. }
  assert (B : forall l, list_eqb Bool.eqb l l = true).
  { induction l as [|a l IH]; cbn; [reflexivity|]. now rewrite Bool.eqb_reflx, IH. }
  rewrite A, !B. now rewrite (proj2 (list_eqb_Z (lens m) (lens m)) eq_refl).
Qed.

Lemma list_eqb_sound {A} (eqb : A -> A -> bool) : (forall a b, eqb a b = true -> a = b) ->
  forall l l', list_eqb eqb l l' = true -> l = l'.
Proof.
  intros He. induction l as [|a l IH]; intros [|b l'] H; cbn in H; try reflexivity; try discriminate.
  apply andb_true_iff in H as [H1 H2]. f_equal; auto.
Qed.

Lemma meta_eq_other m m' : chs m = None -> chs m' = None -> m <> m' -> meta_eq m m' = Err AttributeError.
Proof.
  intros H H' Hne. unfold meta_eq. rewrite H, H'.
  match goal with |- (if ?b then _ else _) = _ => destruct b eqn:E end; [|reflexivity].
  exfalso. apply Hne. rewrite !andb_true_iff in E. destruct E as ((((E1 & E2) & E3) & E4) & _).
  apply (list_eqb_sound String.eqb) in E1; [|intros a b Hab; now apply String.eqb_eq].
  apply (list_eqb_sound Bool.eqb) in E2; [|intros a b Hab; now apply eqb_prop].
  apply (list_eqb_sound Bool.eqb) in E3; [|intros a b Hab; now apply eqb_prop].
  apply list_eqb_Z in E4. destruct m, m'. cbn in *. congruence.
Qed.

Section Scatter.
Context {V : Type}.
Implicit Types (x y : @stensor V) (t : @tensor V).

Lemma torch_scatter_ok red t k (ix : @tensor Z) src :
  (k < length (shp t))%nat -> Forall (fun n => 0 <= n) (shp t) -> ix_fits k (shp t) ix -> within (shp ix) (shp src) ->
  exists t', torch_scatter red t k ix src = Ok t' /\ scattered red k t ix src t'.
Proof.
  intros Hk Hs [HR HS HE] HW. unfold torch_scatter, scattered. destruct (is_empty (shp ix)) eqn:E.
  - eexists. split; [reflexivity|]. split; [reflexivity|]. intros p Hp. exists []. split; [constructor|]. split; [|reflexivity].
    intros q. split; [intros []|]. intros [Hq _]. exfalso. eapply is_empty_range; eauto.
  - assert (F : fits_but k (shp ix) (shp t) = true).
    { apply fits_but_iff; [exact Hk|]. split; [exact HR|]. intros e m n E1 E2 Hne. destruct (HS e m n E1 E2). auto. }
    rewrite F. unfold fits. rewrite (proj2 (leb_list _ _) HW). cbn [negb orb].
    assert (G : entries_ok ix (size t k) = true).
    { apply entries_ok_iff. intros p Hp. apply HE; [exact Hp|]. unfold size. now apply nth_error_nth'. }
    rewrite G. cbn [negb]. eexists. split; [reflexivity|]. split; [reflexivity|]. intros p Hp. cbn [at_].
    eexists. split; [|split; [|reflexivity]].
    + apply NoDup_filter. apply all_positions_NoDup.
    + intros q. rewrite filter_In, all_positions_In, list_eqb_Z. unfold arrives.
      split; intros [Hq Eq]; split; auto; rewrite list_set_put in *; auto; apply Forall2_len in Hq; lia.
Qed.


(** No element ends up in another position along any other dimension. *)
Lemma arrives_agree k (ix : @tensor Z) p q : (k < length (shp ix))%nat -> arrives k ix p q -> agree_but k p q.
Proof.
  intros Hk [Hq <-]. apply Forall2_len in Hq. split; [rewrite put_length; lia|]. intros d Hd.
  rewrite put_nth by lia. destruct (Nat.eqb d k) eqn:E; [lia|reflexivity].
Qed.

Lemma all_equal_same m0 l : chs m0 = None -> Forall (eq m0) l -> all_equal m0 l = Ok true.
Proof.
  intros H F. induction F as [|m l <- F IH]; [reflexivity|]. cbn [all_equal]. rewrite (meta_eq_self m0 H). exact IH.
Qed.

(** The metadata that scatter sees, the input first. *)
Lemma scatter_dims x bd ld c rs T red inplace d k ix ixi src t' : stream_ok x bd ld c rs T ->
  denotes (length (shp (tn x))) d k -> torch_scatter red (tn x) k ix (op_tensor src) = Ok t' -> shp t' = shp (tn x) ->
  scatter red inplace (OStream x) d ix ixi (SrcTensor src)
  = (if (d =? Z.of_nat bd) || (d =? Z.of_nat ld) then Ok (OPlain t')
     else do same <- all_equal (smeta x) (map snd (collected [Some (names x, smeta x); ixi; op_info src; if inplace then Some (names x, smeta x) else None]));
          if same then Ok (OStream (mkSt t' (names x) (smeta x))) else Ok (OPlain t')).
Proof.
  intros H Hd Ht Hs. destruct (names_index_sizes _ _ _ _ _ _ H) as (IB & IL & SB & SL).
  unfold scatter. cbn [op_tensor op_info collected flat_map app].
  rewrite (proj2 (norm_dim_denotes (ndim (tn x)) d k) Hd). cbn [bind]. rewrite Ht. cbn [bind]. rewrite IB. cbn [bind].
  destruct (d =? Z.of_nat bd) eqn:E; cbn [bind orb]; [reflexivity|]. rewrite IL. cbn [bind].
  destruct (d =? Z.of_nat ld) eqn:E'; [reflexivity|].
  cbn [map snd]. destruct (all_equal _ _) as [b|]; [|reflexivity]. cbn [bind]. destruct b; [|reflexivity]. cbn [negb].
  unfold ndim. rewrite Hs. rewrite rename_ok; [reflexivity| |].
  - exact (so_rank _ _ _ _ _ _ H).
  - exact (so_distinct _ _ _ _ _ _ H).
Qed.

Definition same_info m (o : option (list dname * meta)) : Prop := match o with Some (_, m') => m' = m | None => True end.

(** C56: along the other dimensions, names and metadata are those of the input. *)
Lemma scatter_keeps x bd ld rs T red inplace d k ix ixi src : stream_ok x bd ld false rs T ->
  denotes (length (shp (tn x))) d k -> (k <> bd /\ k <> ld \/ d < 0) -> ix_fits k (shp (tn x)) ix -> within (shp ix) (shp (op_tensor src)) ->
  same_info (smeta x) ixi -> same_info (smeta x) (op_info src) ->
  exists y, scatter red inplace (OStream x) d ix ixi (SrcTensor src) = Ok (OStream y) /\
    names y = names x /\ smeta y = smeta x /\ scattered red k (tn x) ix (op_tensor src) (tn y).
Proof.
  intros H Hd Hk Hi Hw I1 I2.
  destruct (torch_scatter_ok red (tn x) k ix (op_tensor src)) as (t' & Et & S1); [apply Hd|apply H|exact Hi|exact Hw|].
  rewrite (scatter_dims x bd ld false rs T red inplace d k ix ixi src t' H Hd Et (proj1 S1)).
  assert (E : (d =? Z.of_nat bd) || (d =? Z.of_nat ld) = false) by (destruct Hd; lia).
  rewrite E. rewrite all_equal_same.
  - eexists. split; [reflexivity|]. auto.
  - now rewrite (so_meta _ _ _ _ _ _ H).
  - cbn [collected flat_map app map snd]. constructor; [reflexivity|].
    destruct ixi as [[]|], (op_info src) as [[]|], inplace; cbn in *; subst; repeat (constructor; [reflexivity|]); constructor.
Qed.

Lemma torch_scatter_shape red t k (ix : @tensor Z) src t' : torch_scatter red t k ix src = Ok t' -> shp t' = shp t.
Proof.
  unfold torch_scatter. intros E. destruct (is_empty (shp ix)); [injection E as <-; reflexivity|].
  destruct (_ || _); [discriminate|]. destruct (negb _); [discriminate|]. injection E as <-. reflexivity.
Qed.

Lemma scatter_inv x bd ld c rs T red inplace d ix ixi src o : stream_ok x bd ld c rs T ->
  scatter red inplace (OStream x) d ix ixi (SrcTensor src) = Ok o ->
  exists k t', denotes (length (shp (tn x))) d k /\ torch_scatter red (tn x) k ix (op_tensor src) = Ok t' /\ shp t' = shp (tn x).
Proof.
  intros H E. unfold scatter in E. cbn [op_tensor] in E.
  destruct (norm_dim (ndim (tn x)) d) as [k|] eqn:Ek; [|discriminate]. cbn [bind] in E.
  destruct (torch_scatter red (tn x) k ix (op_tensor src)) as [t'|] eqn:Et; [|discriminate].
  exists k, t'. split; [now apply norm_dim_denotes|]. split; [exact Et|]. now apply torch_scatter_shape in Et.
Qed.

(** Along the batch or the length dimension, counted from the front: a plain tensor. *)
Lemma scatter_falls_back x bd ld c rs T red inplace (k : nat) ix ixi src : stream_ok x bd ld c rs T ->
  k = bd \/ k = ld -> ix_fits k (shp (tn x)) ix -> within (shp ix) (shp (op_tensor src)) ->
  exists t', scatter red inplace (OStream x) (Z.of_nat k) ix ixi (SrcTensor src) = Ok (OPlain t') /\
    scattered red k (tn x) ix (op_tensor src) t'.
Proof.
  intros H Hk Hi Hw.
  assert (Hd : denotes (length (shp (tn x))) (Z.of_nat k) k).
  { assert (k < length (shp (tn x)))%nat; [|split; [assumption|lia]].
    destruct Hk as [-> | ->]; [eapply nth_error_Some_lt, (so_bsize _ _ _ _ _ _ H)|eapply nth_error_Some_lt, (so_lsize _ _ _ _ _ _ H)]. }
  destruct (torch_scatter_ok red (tn x) k ix (op_tensor src)) as (t' & Et & S1); [apply Hd|apply H|exact Hi|exact Hw|].
  rewrite (scatter_dims x bd ld c rs T red inplace _ k ix ixi src t' H Hd Et (proj1 S1)).
  assert (E : (Z.of_nat k =? Z.of_nat bd) || (Z.of_nat k =? Z.of_nat ld) = true) by lia. rewrite E. eauto.
Qed.

(** Chunk indices that are not the lengths: never a StreamTensor. *)
Lemma scatter_chunks x bd ld rs T red inplace d ix ixi src y : stream_ok x bd ld true rs T -> map rch rs <> map rlen rs ->
  scatter red inplace (OStream x) d ix ixi (SrcTensor src) <> Ok (OStream y).
Proof.
  intros H Hc E. destruct (scatter_inv x bd ld true rs T red inplace d ix ixi src _ H E) as (k & t' & Hd & Et & Hs).
  rewrite (scatter_dims x bd ld true rs T red inplace d k ix ixi src t' H Hd Et Hs) in E.
  destruct (_ || _); [discriminate|]. cbn [collected flat_map app map snd all_equal] in E.
  rewrite (meta_eq_left_chunks _ _ (map rch rs)) in E by now rewrite (so_meta _ _ _ _ _ _ H).
  cbn [bind] in E. rewrite (so_meta _ _ _ _ _ _ H) in E. cbn [lens of_rows] in E.
  destruct (list_eqb Z.eqb (map rch rs) (map rlen rs)) eqn:EL; [apply list_eqb_Z in EL; congruence|discriminate].
Qed.

(** Different metadata without chunk indices. *)
Lemma scatter_differs x bd ld rs T red inplace d k ix z : stream_ok x bd ld false rs T ->
  denotes (length (shp (tn x))) d k -> k <> bd -> k <> ld -> ix_fits k (shp (tn x)) ix -> within (shp ix) (shp (tn z)) ->
  chs (smeta z) = None -> smeta z <> smeta x ->
  scatter red inplace (OStream x) d ix None (SrcTensor (OStream z)) = Err AttributeError.
Proof.
  intros H Hd Hb Hl Hi Hw Hz Hne.
  destruct (torch_scatter_ok red (tn x) k ix (tn z)) as (t' & Et & S1); [apply Hd|apply H|exact Hi|exact Hw|].
  rewrite (scatter_dims x bd ld false rs T red inplace d k ix None (OStream z) t' H Hd Et (proj1 S1)).
  assert (E : (d =? Z.of_nat bd) || (d =? Z.of_nat ld) = false) by (destruct Hd; lia). rewrite E.
  cbn [collected flat_map app map snd all_equal op_info].
  assert (Hx : chs (smeta x) = None) by now rewrite (so_meta _ _ _ _ _ _ H).
  rewrite (meta_eq_self _ Hx). cbn [bind]. now rewrite (meta_eq_other _ _ Hz Hx Hne).
Qed.

(** A plain input: the result has the sizes of the input, names and metadata of src. *)
Lemma scatter_plain_input t x bd ld rs T red inplace d k ix : stream_ok x bd ld false rs T ->
  length (shp t) = length (shp (tn x)) -> Forall (fun n => 0 <= n) (shp t) ->
  denotes (length (shp t)) d k -> k <> bd -> k <> ld -> ix_fits k (shp t) ix -> within (shp ix) (shp (tn x)) ->
  exists y, scatter red inplace (OPlain t) d ix None (SrcTensor (OStream x)) = Ok (OStream y) /\
    shp (tn y) = shp t /\ names y = names x /\ smeta y = smeta x.
Proof.
  intros H HL Hs Hd Hb Hl Hi Hw. destruct (names_index_sizes _ _ _ _ _ _ H) as (IB & IL & SB & SL).
  destruct (torch_scatter_ok red t k ix (tn x)) as (t' & Et & S1); [apply Hd|exact Hs|exact Hi|exact Hw|].
  exists (mkSt t' (names x) (smeta x)).
  split; [|split; [exact (proj1 S1)|split; reflexivity]].
  unfold scatter. cbn [op_tensor op_info collected flat_map app].
  rewrite (proj2 (norm_dim_denotes (ndim t) d k) Hd). cbn [bind]. rewrite Et. cbn [bind].
  assert (Hx : chs (smeta x) = None) by now rewrite (so_meta _ _ _ _ _ _ H).
  assert (EI : (if inplace then @op_info V (OPlain t) else None) = None) by (destruct inplace; reflexivity).
  cbn [op_info] in EI. rewrite EI. cbn [app]. rewrite IB. cbn [bind].
  destruct (d =? Z.of_nat bd) eqn:E; [destruct Hd; lia|]. rewrite IL. cbn [bind].
  destruct (d =? Z.of_nat ld) eqn:E'; [destruct Hd; lia|]. cbn [map snd all_equal]. rewrite (meta_eq_self _ Hx). cbn [bind negb].
  unfold ndim. rewrite (proj1 S1), rename_ok; [reflexivity| |exact (so_distinct _ _ _ _ _ _ H)].
  rewrite HL. exact (so_rank _ _ _ _ _ _ H).
Qed.

End Scatter.

(* ---------- decouple_recursive ---------- *)

Section Decouple.
Context {T : Type}.

Fixpoint value_ind' (P : value T -> Prop) (H1 : forall t m n, P (VStream t m n)) (H2 : forall t, P (VTensor t))
    (H3 : forall s, P (VStr s)) (H4 : forall b l, Forall P l -> P (VSeq b l))
    (H5 : forall l, Forall (fun p => P (snd p)) l -> P (VMap l)) (H6 : forall z, P (VOther z)) (v : value T) {struct v} : P v :=
  let rec := value_ind' P H1 H2 H3 H4 H5 H6 in
  match v with
  | VStream t m n => H1 t m n
  | VTensor t => H2 t
  | VStr s => H3 s
  | VSeq b l => H4 b l ((fix go l := match l return Forall P l with [] => Forall_nil _ | a :: r => Forall_cons a (rec a) (go r) end) l)
  | VMap l => H5 l ((fix go l := match l return Forall (fun p => P (snd p)) l with [] => Forall_nil _ | a :: r => Forall_cons a (rec (snd a)) (go r) end) l)
  | VOther z => H6 z
  end.

Lemma decouple_stripped (v : value T) : stripped v (fst (decouple_recursive v)) /\ found v (snd (decouple_recursive v)).
Proof.
  induction v as [t m n|t|s|b l IH|l IH|z] using value_ind'; cbn [decouple_recursive fst snd]; try (split; constructor).
  - rewrite map_map. induction IH as [|v l [S F] _ IHl]; [constructor|]. cbn [map]. constructor; [exact S|exact IHl].
  - rewrite map_map. induction IH as [|v l [S F] _ IHl]; [constructor|]. cbn [map]. constructor; [exact F|exact IHl].
  - rewrite map_map. cbn [fst snd]. induction IH as [|v l [S F] _ IHl]; [constructor|]. cbn [map]. constructor; [cbn [fst snd]; auto|exact IHl].
  - rewrite map_map. cbn [fst snd]. induction IH as [|v l [S F] _ IHl]; [constructor|]. cbn [map]. constructor; [exact F|exact IHl].
Qed.

Lemma found_occurs (v : value T) : forall l, found v l -> forall m n, In (m, n) l <-> occurs v m n.
Proof.
  induction v as [t m0 n0|t|s|b vs IH|vs IH|z] using value_ind'; intros l F m n; inversion F; subst.
  - split.
    + intros [E|[]]. injection E as -> ->. constructor.
    + intros O. inversion O; subst. now left.
  - split; [intros []|intros O; inversion O].
  - split; [intros []|intros O; inversion O].
  - match goal with H : Forall2 found vs ?ls |- _ => rename H into F2; rename ls into ls end.
    split.
    + intros Hin. apply in_concat in Hin as (a & Ha & Hm).
      clear F. induction F2 as [|v l0 vs ls Fv F2 IH2]; [destruct Ha|]. inversion IH as [|? ? IHv IHs]; subst.
      destruct Ha as [<-|Ha].
      * apply (Oc_seq _ _ v); [now left|]. now apply (IHv l0).
      * specialize (IH2 IHs Ha). inversion IH2; subst. eapply Oc_seq; [right; eassumption|eassumption].
    + intros O. inversion O as [|? ? v ? ? Hin Ov|]; subst. clear O F. apply in_concat.
      induction F2 as [|v0 l0 vs ls Fv F2 IH2]; [destruct Hin|]. inversion IH as [|? ? IHv IHs]; subst.
      destruct Hin as [->|Hin].
      * exists l0. split; [now left|]. now apply IHv.
      * destruct (IH2 IHs Hin) as (a & Ha & Hm). exists a. split; [now right|exact Hm].
  - match goal with H : Forall2 _ vs ?ls |- _ => rename H into F2; rename ls into ls end.
    split.
    + intros Hin. apply in_concat in Hin as (a & Ha & Hm).
      clear F. induction F2 as [|v l0 vs ls Fv F2 IH2]; [destruct Ha|]. inversion IH as [|? ? IHv IHs]; subst.
      destruct Ha as [<-|Ha].
      * destruct v as [k v]. apply (Oc_map _ k v); [now left|]. now apply (IHv l0).
      * specialize (IH2 IHs Ha). inversion IH2; subst. eapply Oc_map; [right; eassumption|eassumption].
    + intros O. inversion O as [| |? k v ? ? Hin Ov]; subst. clear O F. apply in_concat.
      induction F2 as [|v0 l0 vs ls Fv F2 IH2]; [destruct Hin|]. inversion IH as [|? ? IHv IHs]; subst.
      destruct Hin as [->|Hin].
      * exists l0. split; [now left|]. now apply IHv.
      * destruct (IH2 IHs Hin) as (a & Ha & Hm). exists a. split; [now right|exact Hm].
  - split; [intros []|intros O; inversion O].
Qed.

Lemma stripped_none (v : value T) : forall v' m n, stripped v v' -> ~ occurs v' m n.
Proof.
  induction v as [t m0 n0|t|s|b vs IH|vs IH|z] using value_ind'; intros v' m n S O; inversion S; subst; try (inversion O; fail).
  - match goal with H : Forall2 stripped vs ?l |- _ => rename H into F2 end.
    inversion O as [|? ? v ? ? Hin Ov|]; subst. clear O S.
    induction F2 as [|v0 v0' vs vs' Fv F2 IH2]; [destruct Hin|]. inversion IH as [|? ? IHv IHs]; subst.
    destruct Hin as [->|Hin]; [exact (IHv _ _ _ Fv Ov)|exact (IH2 IHs Hin)].
  - match goal with H : Forall2 _ vs ?l |- _ => rename H into F2 end.
    inversion O as [| |? k v ? ? Hin Ov]; subst. clear O S.
    induction F2 as [|v0 v0' vs vs' Fv F2 IH2]; [destruct Hin|]. inversion IH as [|? ? IHv IHs]; subst.
    destruct Hin as [->|Hin]; [exact (IHv _ _ _ (proj2 Fv) Ov)|exact (IH2 IHs Hin)].
Qed.

End Decouple.

(* ---- entries outside the dimension *)

Section Outside.
Context {V : Type}.

Lemma outside_entries (t : @tensor V) k (ix : @tensor Z) p n : nth_error (shp t) k = Some n -> in_range (shp ix) p -> ~ 0 <= at_ ix p < n ->
  is_empty (shp ix) = false /\ entries_ok ix (size t k) = false.
Proof.
  intros Hn Hp Ho. split.
  - destruct (is_empty (shp ix)) eqn:E; [|reflexivity]. exfalso. exact (is_empty_range _ _ E Hp).
  - destruct (entries_ok ix (size t k)) eqn:E; [|reflexivity]. exfalso. apply Ho. unfold size in E.
    rewrite (nth_error_nth _ _ _ Hn) in E. exact (proj1 (entries_ok_iff ix n) E p Hp).
Qed.

Lemma gather_outside (x : @stensor V) d k ix p n : denotes (length (shp (tn x))) d k -> nth_error (shp (tn x)) k = Some n ->
  in_range (shp ix) p -> ~ 0 <= at_ ix p < n -> gather x d (mkIx ix false) = Err RuntimeError.
Proof.
  intros Hd Hn Hp Ho. destruct (outside_entries (tn x) k ix p n Hn Hp Ho) as [E1 E2].
  assert (E : norm_dim (ndim (tn x)) d = Ok k) by (apply norm_dim_denotes; exact Hd).
  unfold gather, gather_with. cbn [ix_stream ix_tn]. rewrite E. cbn [bind].
  unfold torch_gather. rewrite E1, E2. destruct (negb (fits_but k (shp ix) (shp (tn x)))); reflexivity.
Qed.

Lemma scatter_outside red inplace (o : @operand V) d k ix ixi src p n : denotes (length (shp (op_tensor o))) d k ->
  nth_error (shp (op_tensor o)) k = Some n -> in_range (shp ix) p -> ~ 0 <= at_ ix p < n ->
  scatter red inplace o d ix ixi (SrcTensor src) = Err RuntimeError.
Proof.
  intros Hd Hn Hp Ho. destruct (outside_entries (op_tensor o) k ix p n Hn Hp Ho) as [E1 E2].
  assert (E : norm_dim (ndim (op_tensor o)) d = Ok k) by (apply norm_dim_denotes; exact Hd).
  unfold scatter. rewrite E. cbn [bind].
  unfold torch_scatter. rewrite E1, E2. destruct (_ || _); reflexivity.
Qed.

(** Sizes that do not fit. *)
Lemma misfit_but k (a b : list Z) : (k < length b)%nat ->
  length a <> length b \/ (exists e m n, e <> k /\ nth_error a e = Some m /\ nth_error b e = Some n /\ n < m) -> fits_but k a b = false.
Proof.
  intros Hk H. apply not_true_iff_false. rewrite fits_but_iff by exact Hk. intros [HL F].
  destruct H as [H|(e & m & n & He & E1 & E2 & H)]; [contradiction|]. specialize (F e m n E1 E2 He). lia.
Qed.

Lemma misfit (a b : list Z) : length a <> length b \/ (exists e m n, nth_error a e = Some m /\ nth_error b e = Some n /\ n < m) -> fits a b = false.
Proof.
  intros H. apply not_true_iff_false. unfold fits. rewrite leb_list. intros F.
  destruct H as [H|(e & m & n & E1 & E2 & H)]; [apply H; exact (Forall2_len _ _ _ F)|]. pose proof (Forall2_nth_le _ _ F e m n E1 E2). lia.
Qed.

Lemma denotes_lt n d k : denotes n d k -> (k < n)%nat.
Proof. unfold denotes. lia. Qed.

Lemma gather_misfit (x : @stensor V) d k ix p : denotes (length (shp (tn x))) d k -> in_range (shp ix) p ->
  length (shp ix) <> length (shp (tn x)) \/ (exists e m n, e <> k /\ nth_error (shp ix) e = Some m /\ nth_error (shp (tn x)) e = Some n /\ n < m) ->
  gather x d (mkIx ix false) = Err RuntimeError.
Proof.
  intros Hd Hp H. pose proof (denotes_lt _ _ _ Hd) as Hk. apply (misfit_but k) in H; [|exact Hk].
  assert (E : norm_dim (ndim (tn x)) d = Ok k) by (apply norm_dim_denotes; exact Hd).
  unfold gather, gather_with. cbn [ix_stream ix_tn]. rewrite E. cbn [bind]. unfold torch_gather. rewrite H.
  destruct (is_empty (shp ix)) eqn:E1; [destruct (is_empty_range _ _ E1 Hp)|reflexivity].
Qed.

Lemma scatter_misfit red inplace (o : @operand V) d k ix ixi src p : denotes (length (shp (op_tensor o))) d k -> in_range (shp ix) p ->
  (length (shp ix) <> length (shp (op_tensor o)) \/
   exists e m n, e <> k /\ nth_error (shp ix) e = Some m /\ nth_error (shp (op_tensor o)) e = Some n /\ n < m) \/
  (length (shp ix) <> length (shp (op_tensor src)) \/
   exists e m n, nth_error (shp ix) e = Some m /\ nth_error (shp (op_tensor src)) e = Some n /\ n < m) ->
  scatter red inplace o d ix ixi (SrcTensor src) = Err RuntimeError.
Proof.
  intros Hd Hp H. pose proof (denotes_lt _ _ _ Hd) as Hk.
  assert (E : norm_dim (ndim (op_tensor o)) d = Ok k) by (apply norm_dim_denotes; exact Hd).
  unfold scatter. rewrite E. cbn [bind]. unfold torch_scatter.
  destruct (is_empty (shp ix)) eqn:E1; [destruct (is_empty_range _ _ E1 Hp)|].
  destruct H as [H|H]; [rewrite (misfit_but k _ _ Hk H)|rewrite (misfit _ _ H), orb_true_r]; reflexivity.
Qed.

Lemma bcast_sizes_bad a : forall b e x y, nth_error a e = Some x -> nth_error b e = Some y -> x <> y -> x <> 1 -> y <> 1 -> bcast_sizes a b = Err RuntimeError.
Proof.
  induction a as [|p a IH]; intros [|q b] [|e] x y Ha Hb N1 N2 N3; cbn in Ha, Hb; try discriminate; cbn [bcast_sizes].
  - injection Ha as ->. injection Hb as ->. unfold bcast_size.
    replace (x =? y) with false by lia. replace (x =? 1) with false by lia. replace (y =? 1) with false by lia. reflexivity.
  - rewrite (IH _ _ _ _ Ha Hb N1 N2 N3). unfold bcast_size. destruct (p =? q); [reflexivity|]. destruct (p =? 1); [reflexivity|]. destruct (q =? 1); reflexivity.
Qed.

Lemma take_along_misfit (x : @stensor V) d k ix : denotes (length (shp (tn x))) d k ->
  length (shp ix) <> length (shp (tn x)) \/
  (exists e m n, e <> k /\ nth_error (shp ix) e = Some m /\ nth_error (shp (tn x)) e = Some n /\ m <> n /\ m <> 1 /\ n <> 1) ->
  take_along_dim x d (mkIx ix false) = Err RuntimeError.
Proof.
  intros Hd H. assert (E : norm_dim (ndim (tn x)) d = Ok k) by (apply norm_dim_denotes; exact Hd).
  unfold take_along_dim, gather_with. cbn [ix_stream ix_tn]. rewrite E. cbn [bind]. unfold torch_take_along_dim, ndim.
  destruct (Nat.eqb (length (shp (tn x))) (length (shp ix))) eqn:EL; [|reflexivity]. cbn [negb].
  destruct H as [H|(e & m & n & He & E1 & E2 & N1 & N2 & N3)]; [apply Nat.eqb_eq in EL; congruence|].
  assert (S : forall (l : list Z) e k w, e <> k -> nth_error (list_set l k w) e = nth_error l e).
  { induction l as [|v l IH]; intros [|e'] [|k'] w Hne; cbn; auto; contradiction. }
  rewrite (bcast_sizes_bad _ _ e n m); [reflexivity|rewrite S; auto|exact E1|congruence|exact N3|exact N2].
Qed.

End Outside.

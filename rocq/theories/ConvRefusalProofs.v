(** Proofs: what a convolution demands of its arguments, and what it does to the data of its input. *)

From Coq Require Import String List ZArith Bool Lia.
From Coq Require Import ZifyBool.
From Verif Require Import Py Meta MetaSpec MetaProofs Pad Named Conv ConvSpec ConvProofs ConvRunProofs ConvStreamProofs ConvMoreProofs ConvTensor ConvTensorSpec.
Import ListNotations.
Open Scope Z_scope.

Section Requires.
Context {V : Type}.

Lemma list_set_last3 (l : list Z) d v n c w : list_set l d v = [n; c; w] -> d = 2%nat -> exists w', l = [n; c; w'].
Proof.
  intros E ->. destruct l as [|a [|b [|e [|f l]]]]; cbn in E; try discriminate; [injection E as -> -> _; eauto].
Qed.

Lemma list_set_length {X} (l : list X) : forall d v, length (list_set l d v) = length l.
Proof. induction l as [|a l IH]; intros [|d] v; cbn; auto. Qed.

Lemma pad_last_shape (A : arith V) (t : @tensor V) a b n c w : shp (pad_last A t a b) = [n; c; w] -> exists w', shp t = [n; c; w'].
Proof.
  unfold pad_last. cbn [shp]. intros E. eapply list_set_last3; [exact E|].
  assert (L : length (list_set (shp t) (pred (ndim t)) (a + size t (pred (ndim t)) + b)) = 3%nat) by (rewrite E; reflexivity).
  rewrite list_set_length in L. unfold ndim. rewrite L. reflexivity.
Qed.

Lemma pad_input_shape (A : arith V) p m (t t' : @tensor V) n c w : pad_input A p m t = Ok t' -> shp t' = [n; c; w] -> exists w', shp t = [n; c; w'].
Proof.
  unfold pad_input. intros E H. destruct (max_length m) as [mx|]; [|discriminate]. cbn [bind] in E.
  destruct (Nat.eqb (ndim t) 0); [discriminate|].
  destruct (if 0 <? mx - size t (pred (ndim t)) then _ else Ok t) as [t1|] eqn:E1; [|discriminate]. cbn [bind] in E.
  assert (H1 : shp t1 = [n; c; w]).
  { destruct (any_starting m && negb (all_starting m)); [|congruence]. unfold roll_rows in E. destruct (_ || _); [discriminate|]. injection E as <-. exact H. }
  destruct (0 <? _) eqn:?; [|injection E1 as <-; eauto].
  destruct (all_starting m); [destruct (p <=? _) eqn:?; [|discriminate]|]; injection E1 as <-; eapply pad_last_shape; exact H1.
Qed.

Lemma conv_requires (A : arith V) (k : conv_args V) (x y : @stensor V) tmp : conv1d_t A k x = Ok (y, tmp) ->
  exists s d n c w o cg ks, stride k = ATuple [s] /\ dilation k = ATuple [d] /\ 0 < s /\ 0 < d /\
    shp (tn x) = [n; c; w] /\ shp (weight k) = [o; cg; ks] /\ 0 < groups k /\ c = cg * groups k /\ o mod groups k = 0 /\ groups k <= o /\
    match bias k with Some b => shp b = [o] | None => True end /\
    match padding k with PSame => False | PValid => True | PNum (AInt q) => 0 <= q | PNum (ATuple []) => False | PNum (ATuple (q :: _)) => 0 <= q end.
Proof.
  intros E. unfold conv1d_t in E.
  destruct (int_padding (padding k)) as [p|] eqn:EP; [|discriminate]. cbn [bind] in E.
  destruct (nth_error (shp (weight k)) 2) as [ks|]; [|discriminate]. cbn [bind] in E.
  destruct (first_of (dilation k)) as [d|] eqn:ED; [|discriminate]. cbn [bind] in E. cbv zeta in E.
  set (m := if 0 <? p then set_lengths (smeta x) (padded_lengths p (smeta x)) else smeta x) in *.
  destruct (if (0 <? p) && negb (all_starting_and_ending m) then _ else Ok (tn x, p)) as [(t, p')|] eqn:ET; [|discriminate]. cbn [bind] in E.
  destruct (first_of (stride k)) as [s|] eqn:ES; [|discriminate]. cbn [bind] in E.
  destruct (out_lengths _ s (lens m)) as [ol|]; [|discriminate]. cbn [bind] in E.
  destruct (if _ && _ then new_buffers _ _ _ _ else Ok []) as [tmp'|]; [|discriminate]. cbn [bind] in E.
  destruct (torch_conv1d_t A t k p') as [out|] eqn:EC; [|discriminate]. clear E.
  unfold torch_conv1d_t in EC.
  destruct (stride k) as [|[|s0 [|]]]; try discriminate ES; try discriminate EC. injection ES as ->. cbn [single_of bind] in EC.
  destruct (dilation k) as [|[|d0 [|]]]; try discriminate ED; try discriminate EC. injection ED as ->. cbn [single_of bind] in EC.
  destruct (shp t) as [|n [|c [|w [|]]]] eqn:Et; try discriminate EC.
  destruct (shp (weight k)) as [|o [|cg [|ks' [|]]]] eqn:Ew; try discriminate EC.
  destruct ((groups k <=? 0) || (s <=? 0) || (p' <? 0) || (d <=? 0)) eqn:C1; [discriminate|].
  destruct (negb (o mod groups k =? 0) || negb (c =? cg * groups k) || (o <? groups k)) eqn:C2; [discriminate|].
  destruct (match bias k with Some b => negb (list_eqb Z.eqb (shp b) [o]) | None => false end) eqn:C3; [discriminate|]. clear EC.
  assert (G : exists w', shp (tn x) = [n; c; w']).
  { destruct (_ && _); [|injection ET as -> _; eauto]. destruct (pad_input A p m (tn x)) as [t1|] eqn:E1; [|discriminate]. cbn [bind] in ET.
    injection ET as -> _. eapply pad_input_shape; eauto. }
  destruct G as (w' & G). exists s, d, n, c, w', o, cg, ks'. repeat split; auto; try lia.
  - destruct (bias k) as [b|]; [|exact I]. apply negb_false_iff in C3. clear - C3. destruct (shp b) as [|q [|]]; cbn in C3; try discriminate; [|rewrite andb_false_r in C3; discriminate].
    f_equal. lia.
  - unfold int_padding in EP. destruct (padding k) as [| |[q|[|q l]]]; try discriminate; auto; cbn [bind] in EP; destruct (q <? 0) eqn:?; try discriminate; lia.
Qed.

End Requires.

Section Data.
Context {V : Type}.
Open Scope nat_scope.

Lemma input_data (c : conv_cfg V) st z (t : tens V) x' : valid_cfg c -> input_after c st (tensor_of z t) = Ok x' ->
  let rolled := kspan c = 1 /\ 0 < padn c /\ (exists r, In r (trows t) /\ csos r = true) /\ (exists r, In r (trows t) /\ csos r = false) /\
    (forall r, In r (trows t) -> length (cdat r) + (if csos r then padn c else 0) + (if ceos r then padn c else 0) <= tw t) in
  (rolled -> bd x' = map (fun r => if csos r then repeat z (padn c) ++ cdat r ++ repeat z (tw t - length (cdat r) - padn c)
                                   else cdat r ++ repeat z (tw t - length (cdat r))) (trows t)) /\
  (~ rolled -> bd x' = bd (tensor_of z t)).
Proof.
  intros HV E rolled. unfold input_after in E.
  destruct (pre_hook c st (tensor_of z t)) as [x1|]; [|discriminate]. cbn [bind] in E.
  destruct (conv1d c x1) as [(y, b)|]; [|discriminate]. cbn [bind] in E.
  assert (KW : kernel_width c = Z.of_nat (kspan c)).
  { unfold kernel_width, kspan. destruct HV as (A1 & A2 & A3). nia. }
  rewrite KW in E.
  set (m := bm (tensor_of z t)) in *.
  assert (AS : all_starting m = forallb csos (trows t)).
  { unfold m, tensor_of, batch_with, all_starting. cbn [bm of_rows sos]. rewrite map_map. cbn [rsos]. unfold all_true. clear. induction (trows t); cbn; auto. now rewrite IHl. }
  assert (ANY : any_starting m = existsb csos (trows t)).
  { unfold m, tensor_of, batch_with, any_starting. cbn [bm of_rows sos]. rewrite map_map. cbn [rsos]. unfold any_true. clear. induction (trows t); cbn; auto. now rewrite IHl. }
  assert (ALL : (exists r, In r (trows t) /\ csos r = false) <-> forallb csos (trows t) = false).
  { split.
    - intros (r & H1 & H2). apply not_true_iff_false. rewrite forallb_forall. intros H. rewrite (H r H1) in H2. discriminate.
    - clear. induction (trows t) as [|r l IH]; intros H; [discriminate|]. cbn in H. destruct (csos r) eqn:G; [|exists r; cbn; auto].
      destruct (IH H) as (q & Q1 & Q2). exists q; cbn; auto. }
  assert (EX : (exists r, In r (trows t) /\ csos r = true) <-> existsb csos (trows t) = true) by (symmetry; apply existsb_exists).
  destruct ((1 <? Z.of_nat (kspan c))%Z && negb (all_starting m)) eqn:C.
  { injection E as <-. split; [|reflexivity]. intros (K & _). lia. }
  set (m1 := if (0 <? padn c) then with_lens m (pad_lens (Z.of_nat (padn c)) m) else m) in *.
  assert (S1 : sos m1 = sos m /\ eos m1 = eos m) by (unfold m1; destruct (0 <? padn c); split; reflexivity). destruct S1 as (S1 & S2).
  assert (F1 : all_starting m1 = all_starting m) by (unfold all_starting; now rewrite S1).
  assert (F2 : any_starting m1 = any_starting m) by (unfold any_starting; now rewrite S1).
  unfold all_starting_and_ending in E. rewrite F1, F2, AS, ANY, S1 in E. rewrite AS in C.
  assert (SO : sos m = map csos (trows t)) by (unfold m, tensor_of, batch_with; cbn [bm of_rows sos]; rewrite map_map; reflexivity).
  rewrite SO in E. cbn [bw tensor_of batch_with bd] in E.
  set (padded := match max_length m1 with Ok mx => (0 <? mx - Z.of_nat (tw t))%Z | Err _ => false end) in *.
  assert (PD : 0 < padn c -> trows t <> [] -> padded = negb (forallb (fun r => length (cdat r) + (if csos r then padn c else 0) + (if ceos r then padn c else 0) <=? tw t) (trows t))).
  { intros P0 NE. unfold padded, max_length, m1. rewrite (proj2 (Nat.ltb_lt 0 (padn c)) P0). cbn [with_lens lens].
    unfold m, tensor_of, batch_with. cbn [bm bw]. rewrite pad_lens_rows, map_map. cbn [rlen rsos reos].
    rewrite (map_ext _ (fun r => Z.of_nat (length (cdat r) + (if csos r then padn c else 0) + (if ceos r then padn c else 0)))) by (intros r; destruct (csos r), (ceos r); lia).
    rewrite (zmax_lmax (fun r => length (cdat r) + (if csos r then padn c else 0) + (if ceos r then padn c else 0))) by exact NE.
    set (f := fun r : chunk V => length (cdat r) + (if csos r then padn c else 0) + (if ceos r then padn c else 0)).
    assert (B : forall l, (lmax f l <=? tw t) = forallb (fun r => f r <=? tw t) l).
    { clear. intros l. induction l as [|r l IH]; [reflexivity|]. cbn [lmax map fold_right forallb]. unfold lmax in *. cbn [map fold_right]. lia. }
    specialize (B (trows t)). unfold f in B at 2. rewrite <- B. lia. }
  split.
  - intros (K & P0 & R1 & R2 & R3). apply ALL in R2. pose proof R1 as R1'. apply EX in R1. rewrite R1, R2 in E. cbn [andb negb] in E.
    rewrite PD in E; [|exact P0|intros N; rewrite N in R1; discriminate].
    replace (forallb _ (trows t)) with true in E by (symmetry; apply forallb_forall; intros r Hr; apply Nat.leb_le; auto).
    rewrite (proj2 (Nat.ltb_lt 0 (padn c)) P0) in E. cbn [andb negb] in E. injection E as <-. cbn [bd].
    unfold tensor_of, batch_with; cbn [bd].
    clear - R3. revert R3. generalize (tw t) as w. generalize (trows t) as l. induction l as [|r l IH]; intros w R3; [reflexivity|].
    cbn [map zip fst snd]. rewrite IH by (intros q Hq; apply R3; cbn; auto). f_equal. specialize (R3 r (or_introl eq_refl)). destruct (csos r) eqn:G; [|reflexivity].
    rewrite roll_pad by lia. reflexivity.
  - intros N. match type of E with Ok (mkBatch _ (if ?b then _ else _) _) = _ => destruct b eqn:B end; [|injection E as <-; reflexivity].
    exfalso. apply N. apply andb_prop in B as (B & B1). apply andb_prop in B as (B & B2). apply andb_prop in B as (B & B3). apply andb_prop in B as (B4 & B5).
    assert (P0 : 0 < padn c) by lia. assert (A0 : forallb csos (trows t) = false) by (destruct (forallb csos (trows t)); [discriminate|reflexivity]).
    rewrite A0 in C. assert (1 <= kspan c) by (unfold kspan; apply Nat.le_add_l). split; [cbn [negb] in C; lia|]. split; [exact P0|]. split; [now apply EX|]. split; [now apply ALL|].
    rewrite PD in B3; [|exact P0|intros G; rewrite G in A0; discriminate]. rewrite negb_involutive in B3. rewrite forallb_forall in B3. intros r Hr. specialize (B3 r Hr). lia.
Qed.

End Data.

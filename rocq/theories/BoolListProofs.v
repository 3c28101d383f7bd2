From Coq Require Import String List ZArith Bool Lia.
From Coq Require Import ZifyBool.
From Verif Require Import Py Meta MetaSpec MetaProofs Named NamedSpec NamedProofs BoolList BoolListSpec.
Import ListNotations.
Open Scope Z_scope.

Section BL.
Context {V : Type}.
Implicit Types x y : @stensor V.

Lemma find_ell_none l : ~ In IEll l -> find_ell l = None.
Proof.
  induction l as [|i l IH]; intros H; [reflexivity|]. cbn [find_ell]. destruct i; cbn [is_ell]; try (rewrite IH; [reflexivity|intros X; apply H; now right]).
  exfalso. apply H. now left.
Qed.

(** The items and which of them are lists of bool. *)
Lemma items_of nms ix d bs items aff nn multi : bool_list_at ix d bs -> determine_dims nms ix = Ok (items, aff, nn, multi) ->
  (forall k, k <> d -> nat_mem k aff = true -> is_bools (if multi then nth k items INone else nth 0 items INone) = false) /\
  (if multi then nth d items INone else nth 0 items INone) = IMask bs /\ nat_mem d aff = true.
Proof.
  intros H. destruct H as [bs|pre bs post He Hm].
  - cbn [determine_dims]. intros E. injection E as <- <- <- <-. split; [|split; reflexivity].
    intros k Hk. cbn. intros X. exfalso. rewrite orb_false_r in X. apply Nat.eqb_eq in X. congruence.
  - cbn [determine_dims]. assert (Hl : replace_ellipsis (pre ++ IMask bs :: post) (length nms) = pre ++ IMask bs :: post).
    { unfold replace_ellipsis. rewrite find_ell_none; [reflexivity|]. intros X. apply He. rewrite in_app_iff in *. destruct X as [X|[X|X]]; auto. discriminate. }
    rewrite Hl. destruct (describe_items nms 0 (pre ++ IMask bs :: post)) as [[a n]|] eqn:E; [|discriminate]. cbn [bind].
    destruct (pre ++ IMask bs :: post) eqn:El; [destruct pre; discriminate|]. rewrite <- El in *. intros X. injection X as <- <- <- <-.
    split; [|split].
    + intros k Hk _. assert (G : In (nth k (pre ++ IMask bs :: post) INone) (pre ++ post) \/ nth k (pre ++ IMask bs :: post) INone = INone).
      { destruct (Nat.lt_ge_cases k (length pre)) as [L|L].
        - rewrite app_nth1 by auto. left. apply in_or_app. left. now apply nth_In.
        - rewrite app_nth2 by auto. destruct (k - length pre)%nat as [|j] eqn:Ej; [lia|]. cbn [nth].
          destruct (Nat.lt_ge_cases j (length post)) as [L'|L']; [left; apply in_or_app; right; now apply nth_In|right; now apply nth_overflow]. }
      destruct (nth k (pre ++ IMask bs :: post) INone) as [| | | | | |m|] eqn:En; try reflexivity. exfalso. destruct G as [G|G]; [exact (Hm m G)|discriminate].
    + rewrite app_nth2, Nat.sub_diag by auto. reflexivity.
    + clear - E. assert (G : forall j pre a n, describe_items nms j (pre ++ IMask bs :: post) = Ok (a, n) -> nat_mem (j + length pre) a = true).
      { clear. intros j pre. revert j. induction pre as [|i pre IH]; intros j a n; cbn [app describe_items].
        - cbn [describe_item]. destruct (name_at nms j); [|discriminate]. cbn [bind]. destruct (describe_items nms (S j) post) as [[a' n']|]; [|discriminate].
          cbn [bind]. intros X. injection X as <- <-. cbn. now rewrite Nat.add_0_r, Nat.eqb_refl.
        - destruct (describe_item nms j i) as [[a1 n1]|]; [|discriminate]. cbn [bind].
          destruct (describe_items nms (S j) (pre ++ IMask bs :: post)) as [[a' n']|] eqn:E; [|discriminate]. cbn [bind]. intros X. injection X as <- <-.
          apply IH in E. unfold nat_mem in *. rewrite existsb_app. cbn [length]. rewrite Nat.add_succ_r. cbn [Nat.add] in E. rewrite E. apply orb_true_r. }
      exact (G 0%nat pre a n E).
Qed.

Lemma bools_bidx_other i : is_bools i = false -> bools_bidx i = to_bidx i.
Proof. destruct i; try reflexivity; discriminate. Qed.

Lemma elsewhere x ix d bs bd ld : bool_list_at ix d bs -> names_index (Some BATCH) (names x) = Ok bd -> names_index (Some LENGTH) (names x) = Ok ld ->
  d <> bd -> d <> ld -> getitem_bools x ix = getitem x ix.
Proof.
  intros H Hb Hl Nb Nl. unfold getitem_bools, getitem. destruct (torch_getitem (tn x) ix); [|reflexivity]. cbn [bind].
  destruct (determine_dims (names x) ix) as [[[[items aff] nn] multi]|] eqn:E; [|reflexivity]. cbn [bind]. rewrite Hb, Hl. cbn [bind].
  destruct (items_of _ _ _ _ _ _ _ _ H E) as (A & _). destruct (refine_names _ _); [|reflexivity]. cbn [bind].
  destruct (nat_mem bd aff) eqn:Eb, (nat_mem ld aff) eqn:El; cbn [orb negb andb]; try reflexivity;
    repeat match goal with |- context [is_bools ?i] => rewrite (A ld) by auto end; rewrite ?(bools_bidx_other _ (A bd (fun X => Nb (eq_sym X)) Eb)); reflexivity.
Qed.

(** index_length looks only at the number of ids. *)
Lemma index_length_renamed i m l m' : length i = length (ids m) -> index_length m l = Ok m' -> index_length (renamed i m) l = Ok (renamed i m').
Proof.
  intros Hi. assert (G : forall s e n, make_meta (ids m) s e n (chs m) = Ok m' -> make_meta i s e n (chs m) = Ok (renamed i m')).
  { intros s e n. unfold make_meta. rewrite Hi. destruct (_ && _)%bool; [|discriminate]. intros X. injection X as <-. reflexivity. }
  unfold renamed at 1. destruct l; cbn [index_length]; try discriminate.
  - intros X. injection X as <-. reflexivity.
  - unfold index_length_int, max_length. cbn [ids sos eos lens chs]. destruct (if i0 <? 0 then _ else _); [|discriminate]. cbn [bind]. apply G.
  - unfold index_length_slice, max_length. cbn [ids sos eos lens chs]. destruct (zmax (lens m)); [|discriminate]. cbn [bind].
    destruct (slice_indices s a) as [[[p q] r]|]; [|discriminate]. cbn [bind]. destruct (r <? 0); [discriminate|]. apply G.
  - unfold index_length_list, max_length. cbn [ids sos eos lens chs]. destruct (zmax (lens m)); [|discriminate]. cbn [bind].
    destruct (negb _); [discriminate|]. destruct (minmax _) as [[p q]|]; [|discriminate]. cbn [bind]. apply G.
  - unfold index_length_list, max_length. cbn [ids sos eos lens chs]. destruct (zmax (lens m)); [|discriminate]. cbn [bind].
    destruct (negb _); [discriminate|]. destruct (minmax _) as [[p q]|]; [|discriminate]. cbn [bind]. apply G.
Qed.

Lemma gather_bools {A} (a b : A) l bs : py_gather (a :: b :: l) (map b2z bs) = Ok (map (fun c : bool => if c then b else a) bs).
Proof.
  unfold py_gather, mapM. induction bs as [|c bs IH]; [reflexivity|]. cbn [map seqM]. rewrite IH. destruct c; cbn.
  - replace (1 <? Z.pos (Pos.of_succ_nat (S (length l)))) with true by lia. reflexivity.
  - reflexivity.
Qed.

Lemma masked_true {A} (l : list A) bs : length bs = length l -> ~ In false bs -> masked l bs = l.
Proof.
  unfold masked. revert bs. induction l as [|a l IH]; intros [|b bs] HL H; try discriminate; [reflexivity|]. destruct b; [|exfalso; apply H; now left].
  cbn. f_equal. apply IH; [now injection HL|]. intros X. apply H. now right.
Qed.

Lemma masked_short {A} (l : list A) bs : length bs = length l -> In false bs -> (length (masked l bs) < length l)%nat.
Proof.
  unfold masked. revert bs. induction l as [|a l IH]; intros [|b bs] HL H; try discriminate; [destruct H|]. cbn [combine filter snd map length].
  injection HL as HL. destruct b; cbn [map length].
  - destruct H as [H|H]; [discriminate|]. specialize (IH bs HL H). lia.
  - assert (G : (length (map fst (filter snd (combine l bs))) <= length l)%nat); [|lia].
    clear. rewrite map_length. revert bs. induction l as [|a l IH]; intros [|b bs]; cbn [combine filter length]; try lia. specialize (IH bs). destruct b; cbn [snd length]; lia.
Qed.

Lemma batch_bools c rs bs : length bs = length rs -> bs <> [] ->
  index_batch (of_rows c rs) (BBools bs)
  = match rs with
    | _ :: r :: _ => if existsb negb bs then Err ValueError else Ok (renamed (map (fun _ => rid r) rs) (of_rows c rs))
    | _ => if existsb negb bs then Err ValueError else Err IndexError
    end.
Proof.
  intros HL Hn. cbn [index_batch]. destruct rs as [|r0 [|r rs]].
  - destruct bs; [congruence|discriminate].
  - destruct bs as [|b [|]]; try discriminate. destruct b; cbn; [reflexivity|]. destruct c; reflexivity.
  - cbn [ids of_rows map]. rewrite gather_bools. cbn [bind]. set (all := r0 :: r :: rs) in *.
    change (chs (of_rows c all)) with (if c then Some (map rch all) else None). change (sos (of_rows c all)) with (map rsos all). change (eos (of_rows c all)) with (map reos all). change (lens (of_rows c all)) with (map rlen all).
    rewrite !tensor_mask_eq by (now rewrite map_length). rewrite !masked_map. cbn [bind].
    rewrite (opt_field_of_rows c all (fun A (l : list A) => tensor_mask l bs) (masked all bs)).
    2:{ rewrite tensor_mask_eq by (now rewrite map_length). now rewrite masked_map. }
    cbn [bind]. unfold make_meta. rewrite !map_length. destruct (existsb negb bs) eqn:E.
    + assert (F : In false bs). { apply existsb_exists in E. destruct E as (b & Hb & E). destruct b; [discriminate|exact Hb]. }
      pose proof (masked_short all bs (eq_trans HL eq_refl) F) as G. replace (Nat.eqb (length bs) (length (masked all bs))) with false; [reflexivity|].
      symmetry. apply Nat.eqb_neq. lia.
    + assert (F : ~ In false bs). { intros X. assert (Y : existsb negb bs = true) by (apply existsb_exists; eexists; split; [exact X|reflexivity]). congruence. }
      rewrite masked_true by auto. rewrite HL, Nat.eqb_refl. cbn [andb]. unfold renamed. cbn [sos eos lens chs of_rows].
      replace (map (fun b : bool => if b then rid r else rid r0) bs) with (map (fun _ : row => rid r) all); [reflexivity|].
      clear - HL F. clearbody all. revert bs HL F. induction all as [|a all IH]; intros [|b bs] HL F; try discriminate; [reflexivity|].
      destruct b; [|exfalso; apply F; now left]. cbn [map]. f_equal. apply IH; [now injection HL|]. intros X. apply F. now right.
Qed.

Lemma batch_bools_size c rs bs m : index_batch (of_rows c rs) (BBools bs) = Ok m -> length bs = length rs.
Proof.
  cbn [index_batch]. destruct (py_gather _ _); [|discriminate]. cbn [bind]. unfold tensor_mask at 1. cbn [sos of_rows]. rewrite map_length.
  destruct (Nat.eqb_spec (length rs) (length bs)) as [E|E]; [auto|discriminate].
Qed.

(** The two kinds of index on the batch dimension. *)
Lemma on_batch x ix bs bd ld : bool_list_at ix bd bs -> names_index (Some BATCH) (names x) = Ok bd -> names_index (Some LENGTH) (names x) = Ok ld -> bd <> ld ->
  (exists e, getitem x ix = Err e /\ getitem_bools x ix = Err e) \/
  exists t n l, getitem x ix = (do m' <- index_pair (smeta x) (BMask bs) l; Ok (mkSt t n m')) /\
    getitem_bools x ix = do m' <- index_pair (smeta x) (BBools bs) l; Ok (mkSt t n m').
Proof.
  intros H Hb Hl Nl. unfold getitem_bools, getitem. destruct (torch_getitem (tn x) ix) as [t|e]; [|left; exists e; split; reflexivity]. cbn [bind].
  destruct (determine_dims (names x) ix) as [[[[items aff] nn] multi]|e] eqn:E; [|left; exists e; split; reflexivity]. cbn [bind]. rewrite Hb, Hl. cbn [bind].
  destruct (items_of _ _ _ _ _ _ _ _ H E) as (A & B & C). destruct (refine_names _ _) as [n|e]; [|left; exists e; split; reflexivity]. cbn [bind].
  rewrite C, B. cbn [orb negb bools_bidx to_bidx]. right. exists t, n. destruct (nat_mem ld aff) eqn:El; cbn [andb].
  - rewrite (A ld) by auto. eexists. split; reflexivity.
  - exists LNone. split; reflexivity.
Qed.
End BL.

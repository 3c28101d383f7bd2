(** Proofs for PropertiesStore.v. *)

From Coq Require Import String List ZArith Bool Lia.
From Coq Require Import ZifyBool.
From Verif Require Import Py Meta MetaSpec MetaProofs MetaBatchProofs MetaSplitProofs NamedGetProofs GatherTakeProofs Pad Conv ConvSpec
  ConvProofs ConvMoreProofs Store StoreSpec.
Import ListNotations.
Open Scope nat_scope.

Section StoreProofs.
Context {V : Type}.
Implicit Types (h : store V) (c : conv_cfg V).

Lemma in_zip_r {A B} : forall (l1 : list A) (l2 : list B) a b, In (a, b) (zip l1 l2) -> In b l2.
Proof. induction l1; intros [|y l2] a' b H; simpl in *; try tauto. destruct H as [H|H]; [injection H as _ <-; auto|eauto]. Qed.

(* ---------- the store ---------- *)

Definition old (b : nat) (l : loc) : Prop := match l with Mine _ => True | Ours k => k < b end.
Definition size h : nat := length (ours h).

Lemma old_le b b' l : b <= b' -> old b l -> old b' l.
Proof. destruct l; simpl; lia. Qed.

(** Nothing below [b] has changed. *)
Definition framed (b : nat) h h1 : Prop := (forall l, old b l -> at_loc h1 l = at_loc h l) /\ size h <= size h1.

Lemma framed_refl b h : framed b h h.
Proof. split; auto. Qed.

Lemma framed_trans b h h1 h2 : framed b h h1 -> framed b h1 h2 -> framed b h h2.
Proof. intros [A B] [A' B']. split; [|lia]. intros l Hl. rewrite A', A; auto. Qed.

Lemma framed_le b b' h h1 : b <= b' -> framed b' h h1 -> framed b h h1.
Proof. intros Hb [A B]. split; auto. intros l Hl. apply A. eapply old_le; eauto. Qed.

Lemma fresh_at h rows l1 h1 : fresh h rows = (l1, h1) ->
  at_loc h1 l1 = rows /\ l1 = Ours (size h) /\ size h1 = S (size h) /\ framed (size h) h h1.
Proof.
  unfold fresh. intros E. injection E as <- <-. cbn [at_loc ours]. rewrite app_nth2, Nat.sub_diag by lia. cbn [nth].
  unfold size. cbn [ours]. rewrite app_length. cbn [length]. repeat split; try lia.
  - intros [n|k] Hl; simpl in *; auto. rewrite app_nth1; auto.
  - unfold size. cbn [ours]. rewrite app_length. lia.
Qed.

Lemma put_ours h k rows : k < size h -> at_loc (put h (Ours k) rows) (Ours k) = rows /\ size (put h (Ours k) rows) = size h /\
  framed k h (put h (Ours k) rows).
Proof.
  unfold size. intros Hk. cbn [put at_loc ours]. assert (L : length (firstn k (ours h)) = k) by (rewrite firstn_length; lia).
  assert (E : length (firstn k (ours h) ++ rows :: skipn (S k) (ours h)) = length (ours h)).
  { rewrite app_length. cbn [length]. rewrite L, skipn_length. lia. }
  split; [|split; [exact E|split]].
  - rewrite app_nth2 by lia. now rewrite L, Nat.sub_diag.
  - intros [n|j] Hl; simpl in *; auto. rewrite app_nth1 by lia.
    rewrite <- (firstn_skipn k (ours h)) at 2. now rewrite app_nth1 by lia.
  - unfold size. cbn [ours]. rewrite E. lia.
Qed.

Lemma look_framed b h h1 v : framed b h h1 -> old b (vloc v) -> look h1 v = look h v.
Proof. intros [A _] H. unfold look. now rewrite A. Qed.

(* ---------- explicit padding ---------- *)

Definition agree {A B} (R : A -> B -> Prop) (r : res A) (s : res B) : Prop :=
  match r, s with Ok a, Ok b => R a b | Err e, Err e' => e = e' | _, _ => False end.

Lemma agree_bind {A A' B B'} (R : A -> B -> Prop) (R' : A' -> B' -> Prop) r s f g :
  agree R r s -> (forall a b, R a b -> r = Ok a -> s = Ok b -> agree R' (f a) (g b)) -> agree R' (bind r f) (bind s g).
Proof. destruct r, s; simpl; intros H K; try contradiction; auto. Qed.

(** Where the rows to be convolved are: [b] is the size of the store before the call. *)
Definition placed (b : nat) h l : Prop := old (size h) l /\ b <= size h /\ forall k, l = Ours k -> b <= k.

Lemma padding_agree c m b h l w : placed b h l -> (all_starting m = true \/ exists k, l = Ours k) ->
  agree (fun p q => let '(h1, l1, w1) := p in let '(w1', rows1) := q in
           w1 = w1' /\ at_loc h1 l1 = rows1 /\ framed b h h1 /\ placed b h1 l1 /\
           (l1 = l /\ (exists mx, max_length m = Ok mx /\ mx <= Z.of_nat w)%Z \/ exists k, l1 = Ours k))
    (s_apply_padding c m h l w) (apply_padding c m w (at_loc h l)).
Proof.
  intros (P1 & P2 & P3) Hs. unfold s_apply_padding, apply_padding.
  destruct (max_length m) as [mx|] eqn:Em; cbn [bind]; [|reflexivity].
  apply (agree_bind (fun p q => let '(h1, l1, w1) := p in let '(w1', rows1) := q in
           w1 = w1' /\ at_loc h1 l1 = rows1 /\ framed b h h1 /\ placed b h1 l1 /\
           (l1 = l /\ h1 = h /\ (mx <= Z.of_nat w)%Z \/ exists k, l1 = Ours k))).
  - destruct (0 <? mx - Z.of_nat w)%Z eqn:E.
    + assert (K : forall rows l1 h1, fresh h rows = (l1, h1) ->
         at_loc h1 l1 = rows /\ framed b h h1 /\ placed b h1 l1 /\ exists k, l1 = Ours k).
      { intros rows l1 h1 F. apply fresh_at in F as (A & B & S1 & D). subst l1. repeat split; auto.
        - apply (framed_le b (size h)); auto.
        - destruct D; lia.
        - simpl. lia.
        - lia.
        - intros k Ek. injection Ek as <-. lia.
        - eauto. }
      destruct (all_starting m).
      * destruct (Z.of_nat (padn c) <=? mx - Z.of_nat w)%Z; [|reflexivity].
        destruct (fresh h _) as [l1 h1] eqn:F. apply K in F as (A & B & C & D). cbn [agree]. auto 7.
      * destruct (fresh h _) as [l1 h1] eqn:F. apply K in F as (A & B & C & D). cbn [agree]. auto 7.
    + cbn [agree]. repeat split; auto. left. repeat split; auto. lia.
  - intros [[h1 l1] w1] [w1' rows1] (-> & A & B & (C1 & C2 & C3) & D) _ _. cbn [agree].
    destruct (any_starting m && negb (all_starting m)) eqn:E.
    + assert (exists k, l1 = Ours k) as [k ->].
      { destruct D as [[-> _]|D]; auto. destruct Hs as [Hs|Hs]; auto. rewrite Hs in E. rewrite andb_comm in E. discriminate. }
      pose proof (C3 k eq_refl) as Hk. cbn [old] in C1.
      destruct (put_ours h1 k (map (fun p' : bool * list V => if fst p' then roll (padn c) (snd p') else snd p')
                                   (zip (sos m) (at_loc h1 (Ours k)))) C1) as (X & Y & Z0).
      subst rows1. rewrite X. split; [reflexivity|]. split; [reflexivity|]. split; [|split; [split; [|split]|]].
      * apply (framed_trans b h h1); auto. apply (framed_le b k); auto.
      * cbn [old]. rewrite Y. auto.
      * rewrite Y. auto.
      * auto.
      * eauto.
    + split; [reflexivity|]. split; [exact A|]. split; [exact B|]. split; [split; auto|].
      destruct D as [(-> & -> & D)|D]; [|eauto]. left. eauto.
Qed.

(* ---------- the views handed to the post-hook ---------- *)

Lemma row_slice_total (r : list V) i j : exists s, row_slice r i j = Ok s.
Proof.
  unfold row_slice. change (tensor_slice r (mkSlice (Some i) (Some j) None)) with (list_slice r (mkSlice (Some i) (Some j) (Some 1%Z))).
  rewrite list_slice_pos by lia. eauto.
Qed.

Definition seen h (q : string * view) : string * list V := (fst q, look h (snd q)).

Lemma views_zip c h l : forall (X : list (Z * Z * string * bool)) k n rows,
  length X <= n -> length X <= length rows -> (forall j, nth j rows [] = nth (k + j) (at_loc h l) []) ->
  exists bs, mapM (fun q : Z * Z * string * bool * list V => let '(o, nn, i, e, r) := q in
          if e then Ok []
          else do b <- row_slice r (o * Z.of_nat (strd c)) nn; Ok [(i, b)]) (zip X rows) = Ok bs /\
    List.concat bs = map (seen h) (List.concat (map (fun q : nat * (Z * Z * string * bool) => let '(k, (o, nn, i, e)) := q in
                        if e then [] else [(i, mkView l k (o * Z.of_nat (strd c)) nn)]) (zip (seq k n) X))).
Proof.
  induction X as [|[[[o nn] i] e] X IH]; intros k n rows Hn Hr Hj.
  - exists []. destruct rows; destruct n; split; reflexivity.
  - destruct n as [|n]; cbn [length] in *; [lia|]. destruct rows as [|r rows]; cbn [length] in *; [lia|].
    destruct (IH (S k) n rows) as (bs & E1 & E2); try lia.
    { intros j. specialize (Hj (S j)). cbn [nth] in Hj. rewrite Hj. f_equal. lia. }
    cbn [seq zip]. rewrite mapM_cons. destruct e.
    + exists ([] :: bs). cbn [bind]. rewrite E1. cbn [bind]. split; auto.
    + destruct (row_slice_total r (o * Z.of_nat (strd c)) nn) as [s Es]. rewrite Es. cbn [bind]. rewrite E1. cbn [bind].
      exists ([(i, s)] :: bs). split; auto. cbn [List.concat map app]. f_equal; auto.
      unfold seen. cbn [fst snd]. f_equal. unfold look. cbn [vloc vrow vfrom vto].
      specialize (Hj 0). cbn [nth] in Hj. rewrite Nat.add_0_r in Hj. rewrite <- Hj, Es. reflexivity.
Qed.

Lemma temp_agree c m ol h l : length (at_loc h l) = length (ids m) ->
  temp_buffer c m ol (at_loc h l) = Ok (map (seen h) (s_temp_buffer c m ol l)).
Proof.
  intros Hr. unfold temp_buffer, s_temp_buffer. destruct ((1 <? kernel_width c)%Z && negb (all_ending m)); [|reflexivity].
  destruct (views_zip c h l (zip (zip (zip ol (lens m)) (ids m)) (eos m)) 0 (length (ids m)) (at_loc h l)) as (bs & E1 & E2).
  - rewrite !zip_length'. lia.
  - rewrite !zip_length'. lia.
  - auto.
  - rewrite E1. cbn [bind]. now rewrite E2.
Qed.

(* ---------- conv1d ---------- *)

Lemma padding_rows c m w (rows : list (list V)) w1 rows1 : length (sos m) = length rows -> apply_padding c m w rows = Ok (w1, rows1) ->
  length rows1 = length rows.
Proof.
  intros Hs. unfold apply_padding. intros E. apply bind_ok in E as (mx & _ & E). apply bind_ok in E as ([w2 rows2] & E1 & E).
  assert (L : length rows2 = length rows).
  { destruct (0 <? mx - Z.of_nat w)%Z.
    - destruct (all_starting m); [destruct (Z.of_nat (padn c) <=? mx - Z.of_nat w)%Z; [|discriminate]|];
        injection E1 as _ <-; now rewrite map_length.
    - injection E1 as _ <-. auto. }
  injection E as _ <-. destruct (any_starting m && negb (all_starting m)); auto.
  rewrite map_length, zip_length'. lia.
Qed.

(** [m1] as in conv1d. *)
Definition padded_meta c (m : meta) : meta := if 0 <? padn c then with_lens m (pad_lens (Z.of_nat (padn c)) m) else m.

Lemma padded_meta_fields c m : ids (padded_meta c m) = ids m /\ sos (padded_meta c m) = sos m /\ eos (padded_meta c m) = eos m.
Proof. unfold padded_meta. destruct (0 <? padn c); auto. Qed.

Definition stays c (l : loc) (w : nat) (m : meta) (l1 : loc) : Prop :=
  l1 = l /\ (padn c = 0 \/ all_starting_and_ending m = true \/ exists mx, max_length (padded_meta c m) = Ok mx /\ (mx <= Z.of_nat w)%Z).

Lemma conv1d_agree c m b h l w : placed b h l -> (all_starting m = true \/ exists k, l = Ours k) ->
  length (sos m) = length (ids m) -> length (at_loc h l) = length (ids m) ->
  agree (fun p q => let '(y, vs, h1) := p in let '(y', tmp) := q in
           y = y' /\ tmp = map (seen h1) vs /\ framed b h h1 /\
           ids (bm y) = ids m /\ eos (bm y) = eos m /\
           exists l1 ol, vs = s_temp_buffer c (padded_meta c m) ol l1 /\ length ol = length (lens (padded_meta c m)) /\
             ol = map (output_length c) (lens (padded_meta c m)) /\
             placed b h1 l1 /\ (stays c l w m l1 \/ exists k, l1 = Ours k))
    (s_conv1d c h l w m) (conv1d c (mkBatch w (at_loc h l) m)).
Proof.
  intros HP Hs Lm Lr. unfold s_conv1d, conv1d. cbn [bm bw bd]. fold (padded_meta c m).
  destruct (padded_meta_fields c m) as (F1 & F2 & F3).
  assert (AS : all_starting (padded_meta c m) = all_starting m) by (unfold all_starting; now rewrite F2).
  assert (ASE : all_starting_and_ending (padded_meta c m) = all_starting_and_ending m)
    by (unfold all_starting_and_ending, all_starting, all_ending; now rewrite F2, F3).
  apply (agree_bind (fun p q => let '(h1, l1, w1, np) := p in let '(w1', rows1, np') := q in
           w1 = w1' /\ np = np' /\ at_loc h1 l1 = rows1 /\ length rows1 = length (ids m) /\ framed b h h1 /\ placed b h1 l1 /\
           (stays c l w m l1 \/ exists k, l1 = Ours k))).
  - destruct ((0 <? padn c) && negb (all_starting_and_ending (padded_meta c m))) eqn:E.
    + apply (agree_bind (fun p q => let '(h1, l1, w1) := p in let '(w1', rows1) := q in
           w1 = w1' /\ at_loc h1 l1 = rows1 /\ framed b h h1 /\ placed b h1 l1 /\
           (l1 = l /\ (exists mx, max_length (padded_meta c m) = Ok mx /\ mx <= Z.of_nat w)%Z \/ exists k, l1 = Ours k))).
      * apply padding_agree; auto. now rewrite AS.
      * intros [[h1 l1] w1] [w1' rows1] (-> & A & B & C & D) _ E2. cbn [agree].
        apply padding_rows in E2; [|rewrite F2; lia].
        split; [reflexivity|]. split; [reflexivity|]. split; [exact A|]. split; [lia|]. split; [exact B|]. split; [exact C|].
        destruct D as [[-> D]|D]; auto. left. split; auto.
    + cbn [agree]. split; [reflexivity|]. split; [reflexivity|]. split; [reflexivity|]. split; [exact Lr|].
      split; [apply framed_refl|]. split; [exact HP|]. left. split; auto. rewrite ASE in E. destruct (padn c); auto. right. left. destruct (all_starting_and_ending m); auto; discriminate.
  - intros [[[h1 l1] w1] np] [[w1' rows1] np'] (-> & -> & A & L & B & C & D) _ _.
    set (ol := map (output_length c) (lens (padded_meta c m))).
    rewrite <- A. rewrite temp_agree by (rewrite A, F1; auto). cbn [bind].
    apply (agree_bind eq). { destruct (torch_conv1d c np' w1' (at_loc h1 l1)); reflexivity. }
    intros [wo out] [wo' out'] Ew _ _. injection Ew as <- <-.
    apply (agree_bind eq). { destruct (sequence_mask ol (Some (Z.of_nat wo)) false); reflexivity. }
    intros mask mask' <- _ _. cbn [agree bm with_lens ids eos].
    split; [reflexivity|]. split; [reflexivity|]. split; [exact B|]. split; [exact F1|]. split; [exact F3|].
    exists l1, ol. split; [reflexivity|]. split; [unfold ol; now rewrite map_length|]. split; [reflexivity|]. split; [exact C|exact D].
Qed.


(* ---------- the pre-hook ---------- *)

Lemma make_meta_inv i s e l ch m : make_meta i s e l ch = Ok m ->
  ids m = i /\ length (sos m) = length i /\ length (eos m) = length i /\ length (lens m) = length i /\ length l = length i.
Proof.
  intros E. destruct (make_meta_iff i s e l ch) as [A B].
  destruct (Nat.eq_dec (length s) (length i)), (Nat.eq_dec (length e) (length i)), (Nat.eq_dec (length l) (length i));
    try (rewrite B in E by tauto; discriminate).
  rewrite A in E by tauto. injection E as <-. cbn [ids sos eos lens]. auto.
Qed.

Lemma cat_batch_ids ms m : cat_batch ms = Ok m -> ids m = List.concat (map ids ms).
Proof.
  destruct ms as [|m1 [|m2 ms]]; cbn [cat_batch]; intros E; [discriminate| |].
  - injection E as <-. cbn. now rewrite app_nil_r.
  - now apply make_meta_ids in E.
Qed.

Lemma narrow_ids (x : single V) a n x' : wf (sm x) -> narrow_single x a n = Ok x' -> ids (sm x') = ids (sm x).
Proof.
  intros W. unfold narrow_single. destruct (_ || _); [discriminate|]. destruct (_ || _); [discriminate|].
  intros E. apply bind_ok in E as (m & E1 & E). injection E as <-. cbn [sm].
  apply wf_of_rows in W as (ch & rs & W). rewrite W in *. unfold index_pair in E1. rewrite index_batch_full in E1. cbn [bind] in E1.
  now apply index_length_ids in E1.
Qed.

Lemma Forall2_map_eq {A B C} (f : A -> C) (g : B -> C) l r : Forall2 (fun a b => g b = f a) l r -> map g r = map f l.
Proof. induction 1; simpl; congruence. Qed.

Lemma unpad_ids (x : batch V) xs : wf (bm x) -> unpad_sequence x = Ok xs -> map (fun s => ids (sm s)) xs = map (fun i => [i]) (ids (bm x)).
Proof.
  intros W E. apply wf_of_rows in W as (ch & rs & W). unfold unpad_sequence, unbind_rows in E. rewrite W in *.
  rewrite unbind_batch_rows in E. cbn [bind] in E. destruct (Nat.eqb _ _) eqn:El; [|discriminate]. cbn [bind] in E.
  apply Nat.eqb_eq in El. rewrite map_length in El.
  apply mapM_Forall2 in E.
  assert (F : Forall2 (fun a b => ids (sm b) = ids (sm a)) (map (fun p : list V * meta => mkSingle (fst p) (snd p)) (zip (bd x) (map (fun r => of_rows ch [r]) rs))) xs).
  { clear -E. remember (map _ (zip _ _)) as ys eqn:Ey.
    assert (Wy : Forall (fun y : single V => wf (sm y)) ys).
    { subst ys. apply Forall_forall. intros y Hy. apply in_map_iff in Hy as (p & <- & Hp). destruct p as [r m]. apply in_zip_r in Hp.
      apply in_map_iff in Hp as (q & <- & _). apply of_rows_wf. }
    clear Ey. induction E; constructor; inversion Wy; subst; auto.
    apply bind_ok in H as (n & _ & H). eapply narrow_ids; eauto. }
  rewrite (Forall2_map_eq _ _ _ _ F). cbn [ids of_rows]. rewrite !map_map. cbn [sm snd].
  clear -El. revert El. generalize (bd x). induction rs; intros [|d l] El; cbn in *; try lia; auto. f_equal. auto.
Qed.

Lemma concat_singletons {A} (l : list A) : List.concat (map (fun a => [a]) l) = l.
Proof. induction l; simpl; congruence. Qed.

Lemma cat_single_ids : forall (xs : list (single V)) bs, length xs <= length bs ->
  map (fun s => ids (sm s)) (map cat_single (zip xs bs)) = map (fun s => ids (sm s)) xs.
Proof.
  induction xs as [|x xs IH]; intros [|b bs] H; cbn in *; auto; try lia. f_equal; [|apply IH; lia].
  unfold cat_single. cbn. destruct b; auto.
Qed.

Lemma pad_to_length_rows z (rows : list (list V)) w out : torch_pad_sequence z rows = Ok (w, out) -> length out = length rows.
Proof. unfold torch_pad_sequence. destruct rows; [discriminate|]. intros E. injection E as _ <-. cbn [length]; now rewrite map_length. Qed.

Lemma pre_hook_shape c st (x x1 : batch V) : one_row_each x -> pre_hook c st x = Ok x1 ->
  ids (bm x1) = ids (bm x) /\ length (sos (bm x1)) = length (ids (bm x)) /\ length (eos (bm x1)) = length (ids (bm x)) /\
  length (lens (bm x1)) = length (ids (bm x)) /\ length (bd x1) = length (ids (bm x)).
Proof.
  intros [W L] E. pose proof W as (W1 & W2 & W3 & _). unfold pre_hook in E.
  destruct ((1 <? kernel_width c)%Z && negb (all_starting (bm x))); [|injection E as <-; auto].
  destruct (map buffer_len (buffer_data st (bm x))) as [|r bl] eqn:Eb; [discriminate|].
  destruct (forallb _ _).
  - apply bind_ok in E as (bs & E1 & E). unfold cat_front in E. destruct (Nat.eqb _ _) eqn:El; [|discriminate]. apply Nat.eqb_eq in El.
    injection E as <-. cbn [bm bd with_lens ids sos eos lens]. rewrite !map_length, zip_length'. repeat split; auto; lia.
  - apply bind_ok in E as (xs & E1 & E). unfold pad_stream_tensor in E. apply bind_ok in E as (m & E2 & E).
    pose proof (unpad_ids x xs W E1) as U.
    apply cat_batch_ids in E2. rewrite map_map in E2.
    assert (I : ids m = ids (bm x)).
    { rewrite E2. assert (length xs = length (ids (bm x))) by (rewrite <- (map_length (fun s => ids (sm s)) xs), U; apply map_length).
      rewrite cat_single_ids by (unfold buffer_data; rewrite map_length; lia). rewrite U. apply concat_singletons. }
    unfold pad_chunks in E. destruct (existsb _ _); [discriminate|]. destruct (negb _); [discriminate|].
    apply bind_ok in E as ([w rows] & E3 & E). apply bind_ok in E as (m2 & E4 & E). injection E as <-. cbn [bm bd].
    apply pad_to_length_rows in E3. apply make_meta_inv in E4 as (F1 & F2 & F3 & F4 & F5). rewrite map_length in *.
    rewrite F1, I in *. repeat split; auto; try congruence. rewrite E3. rewrite map_length in F5. lia.
Qed.

Lemma pre_hook_ext c st st' (x : batch V) : (forall i, st i = st' i) -> pre_hook c st x = pre_hook c st' x.
Proof.
  intros E. unfold pre_hook, buffer_data. rewrite (map_ext _ _ E). reflexivity.
Qed.

(* ---------- the post-hook ---------- *)

Definition drop_ended (l : list (string * bool)) (s : @views) : @views :=
  fold_left (fun s (q : string * bool) => if snd q then del_view s (fst q) else s) l s.

Lemma drop_ended_some l : forall s i v, drop_ended l s i = Some v -> s i = Some v /\ ~ In (i, true) l.
Proof.
  induction l as [|[j e] l IH]; intros s i v E; cbn in *; auto.
  apply IH in E as [E N]. destruct e; cbn [snd fst] in E.
  - unfold del_view in E. destruct (String.eqb_spec i j); [discriminate|]. split; auto. intros [K|K]; [congruence|auto].
  - split; auto. intros [K|K]; [congruence|auto].
Qed.

Lemma drop_ended_keep l : forall s i, ~ In (i, true) l -> drop_ended l s i = s i.
Proof.
  induction l as [|[j e] l IH]; intros s i N; cbn in *; auto. rewrite IH by tauto. destruct e; auto.
  unfold del_view. cbn [fst snd]. destruct (String.eqb_spec i j); auto. subst. tauto.
Qed.

Lemma set_views_some vs : forall (s : @views) i v, fold_left set_view vs s i = Some v ->
  In (i, v) vs \/ (s i = Some v /\ ~ In i (map fst vs)).
Proof.
  induction vs as [|[j u] vs IH]; intros s i v E; cbn in *; auto.
  apply IH in E as [E|[E N]]; auto. unfold set_view in E. cbn [fst snd] in E. destruct (String.eqb_spec i j).
  - injection E as <-. subst. auto.
  - right. split; auto. intros [K|K]; [congruence|auto].
Qed.

Lemma set_views_in vs : forall (s : @views) i v, NoDup (map fst vs) -> In (i, v) vs -> fold_left set_view vs s i = Some v.
Proof.
  induction vs as [|[j u] vs IH]; intros s i v N H; cbn in *; [tauto|]. inversion N as [|? ? N1 N2]; subst.
  destruct H as [H|H]; [|apply IH; auto]. injection H as -> ->.
  assert (K : forall l (s : @views), ~ In i (map fst l) -> fold_left set_view l s i = s i).
  { clear. induction l as [|[j u] l IH]; intros s N; cbn in *; auto. rewrite IH by tauto. unfold set_view. cbn.
    destruct (String.eqb_spec i j); auto. subst. tauto. }
  rewrite K by auto. unfold set_view. cbn. now rewrite String.eqb_refl.
Qed.

Lemma post_agree h1 (st : @views) st0 m vs : (forall i, shown h1 st i = st0 i) ->
  forall i, shown h1 (s_post_hook st m vs) i = post_hook st0 m (map (seen h1) vs) i.
Proof.
  intros E. unfold s_post_hook, post_hook.
  assert (E1 : forall vs st st0, (forall i, shown h1 st i = st0 i) -> forall i, shown h1 (fold_left set_view vs st) i = fold_left set_buffer (map (seen h1) vs) st0 i).
  { clear. induction vs as [|q vs IH]; intros st st0 E i; cbn [fold_left map]; auto. apply IH. intros j.
    unfold shown, set_view, set_buffer, seen. cbn [fst snd]. destruct (String.eqb j (fst q)); auto. apply E. }
  generalize (E1 vs st st0 E). generalize (fold_left set_view vs st), (fold_left set_buffer (map (seen h1) vs) st0).
  generalize (zip (ids m) (eos m)). clear. induction l as [|[j e] l IH]; intros s s0 E i; cbn [fold_left]; auto.
  apply IH. intros k. destruct e; cbn [fst snd]; auto. unfold shown, del_view, del_buffer. destruct (String.eqb k j); auto. apply E.
Qed.

(* ---------- members of the temporary buffer ---------- *)

Lemma in_zip_nth {A B} : forall (l1 : list A) (l2 : list B) p, In p (zip l1 l2) ->
  exists k, nth_error l1 k = Some (fst p) /\ nth_error l2 k = Some (snd p).
Proof.
  induction l1 as [|a l1 IH]; intros [|b l2] p H; cbn in H; try tauto. destruct H as [<-|H]; [exists 0; auto|].
  apply IH in H as (k & H). exists (S k). auto.
Qed.

Lemma nth_in_zip {A B} : forall (l1 : list A) (l2 : list B) k a b, nth_error l1 k = Some a -> nth_error l2 k = Some b ->
  nth_error (zip l1 l2) k = Some (a, b).
Proof.
  induction l1 as [|x l1 IH]; intros [|y l2] [|k] a b H1 H2; cbn in *; try discriminate; auto. congruence.
Qed.

Lemma in_temp c m ol l i v : In (i, v) (s_temp_buffer c m ol l) <->
  (1 < kernel_width c)%Z /\ all_ending m = false /\
  exists k o n, nth_error ol k = Some o /\ nth_error (lens m) k = Some n /\ nth_error (ids m) k = Some i /\ nth_error (eos m) k = Some false /\
    v = mkView l k (o * Z.of_nat (strd c)) n.
Proof.
  unfold s_temp_buffer. destruct (1 <? kernel_width c)%Z eqn:E1; [|split; [intros []|lia]].
  destruct (all_ending m) eqn:E2; cbn [negb andb]; [split; [intros []|intuition congruence]|].
  rewrite in_concat. split.
  - intros (x & Hx & Hi). apply in_map_iff in Hx as ([k [[[o n] j] e]] & <- & H). split; [lia|]. split; auto.
    apply in_zip_nth in H as (k' & H1 & H2). cbn [fst snd] in *.
    assert (k' < length (ids m)) by (rewrite <- (seq_length (length (ids m)) 0); apply nth_error_Some; congruence).
    rewrite nth_error_nth' with (d := 0) in H1 by (rewrite seq_length; auto). rewrite seq_nth in H1 by auto. injection H1 as <-.
    apply nth_error_zip in H2. cbn [fst snd] in H2. destruct H2 as [H2 H3].
    apply nth_error_zip in H2. cbn [fst snd] in H2. destruct H2 as [H2 H4].
    apply nth_error_zip in H2. cbn [fst snd] in H2. destruct H2 as [H2 H5].
    destruct e; [destruct Hi|]. destruct Hi as [Hi|[]]. injection Hi as <- <-. exists k', o, n. auto.
  - intros (_ & _ & k & o & n & H1 & H2 & H3 & H4 & ->). exists [(i, mkView l k (o * Z.of_nat (strd c)) n)]. split; [|cbn; auto].
    apply in_map_iff. exists (k, (o, n, i, false)). split; auto.
    apply nth_error_In with (n := k). apply nth_in_zip.
    + assert (k < length (ids m)) by (apply nth_error_Some; congruence).
      rewrite nth_error_nth' with (d := 0) by (rewrite seq_length; auto). now rewrite seq_nth.
    + apply nth_in_zip; auto. apply nth_in_zip; auto. apply nth_in_zip; auto.
Qed.

(* ---------- one call ---------- *)

Definition in_range h (st : views) : Prop := forall i v, st i = Some v -> old (size h) (vloc v).

Lemma zmax_bound l : forall mx x, zmax l = Ok mx -> In x l -> (x <= mx)%Z.
Proof.
  destruct l as [|a l]; intros mx x E H; [discriminate|]. cbn in E. injection E as <-. cbn in H.
  revert a x H. induction l as [|b l IH]; intros a x H; cbn [fold_left In] in *; [lia|].
  destruct H as [->|[->|H]].
  - specialize (IH (Z.max x b) _ (or_introl eq_refl)). lia.
  - specialize (IH (Z.max a x) _ (or_introl eq_refl)). lia.
  - apply IH. auto.
Qed.

Lemma stays_unpadded c n w m l : wf m -> all_starting m = true -> all_ending m = false -> stays c (Mine n) w m l -> unpadded c w m.
Proof.
  intros W A E [_ S]. split.
  { unfold all_starting, all_true in A. rewrite forallb_forall in A. exact A. }
  destruct S as [S|[S|(mx & S1 & S2)]]; auto.
  { unfold all_starting_and_ending in S. rewrite E, andb_false_r in S. discriminate. }
  destruct (Nat.eq_dec (padn c) 0); auto. right. intros j k e H1 H2.
  apply wf_of_rows in W as (ch & rs & ->). unfold padded_meta in S1. replace (0 <? padn c) with true in S1 by lia.
  unfold max_length in S1. cbn [lens with_lens] in S1. rewrite pad_lens_rows in S1.
  cbn [lens eos of_rows] in *. apply nth_error_map' in H1 as (r & Hr & ->). apply nth_error_map' in H2 as (r' & Hr' & ->).
  rewrite Hr in Hr'. injection Hr' as <-. apply nth_error_In in Hr.
  assert (rsos r = true).
  { unfold all_starting in A. cbn [sos of_rows] in A. rewrite all_true_map, forallb_forall in A. auto. }
  apply (zmax_bound _ _ (rlen r + (if rsos r then Z.of_nat (padn c) else 0) + (if reos r then Z.of_nat (padn c) else 0))%Z) in S1.
  - rewrite H in S1. lia.
  - apply in_map_iff. eauto.
Qed.

Lemma ended_or_kept m i j : length (eos m) = length (ids m) -> nth_error (ids m) j = Some i ->
  In (i, true) (zip (ids m) (eos m)) \/ nth_error (eos m) j = Some false.
Proof.
  intros L H. assert (j < length (eos m)) by (rewrite L; apply nth_error_Some; congruence).
  destruct (nth_error (eos m) j) as [[|]|] eqn:E; auto.
  - left. apply nth_error_In with (n := j). now apply nth_in_zip.
  - apply nth_error_None in E. lia.
Qed.

Lemma call_agree c h (st : views) st0 n w m : (1 < kernel_width c)%Z -> one_row_each (mkBatch w (mine h n) m) -> in_range h st ->
  (forall i, shown h st i = st0 i) ->
  agree (fun p q => let '(y, st', h') := p in let '(y', st0') := q in
           y = y' /\ (forall i, shown h' st' i = st0' i) /\ (forall k, mine h' k = mine h k) /\ in_range h' st' /\
           (forall i v k, st' i = Some v -> vloc v = Mine k ->
              st i = Some v /\ ~ In i (ids m) \/ k = n /\ unpadded c w m /\ goes_on m i))
    (s_call c h st n w m) (conv_call c st0 (mkBatch w (mine h n) m)).
Proof.
  intros Hk HR Hin Hst. unfold s_call, conv_call.
  apply (agree_bind (fun p x1 => let '(h1, l1, w1, m1) := p in
           x1 = mkBatch w1 (at_loc h1 l1) m1 /\ framed (size h) h h1 /\ placed (size h) h1 l1 /\
           ids m1 = ids m /\ length (sos m1) = length (ids m) /\ length (eos m1) = length (ids m) /\
           length (lens m1) = length (ids m) /\ length (at_loc h1 l1) = length (ids m) /\
           (l1 = Mine n /\ w1 = w /\ m1 = m /\ all_starting m = true \/ exists k, l1 = Ours k))).
  - unfold s_pre_hook. cbn [at_loc].
    replace (pre_hook c (shown h st) (mkBatch w (mine h n) m)) with (pre_hook c st0 (mkBatch w (mine h n) m))
      by (apply pre_hook_ext; auto).
    destruct ((1 <? kernel_width c)%Z && negb (all_starting m)) eqn:E.
    + destruct (pre_hook c st0 (mkBatch w (mine h n) m)) as [x1|] eqn:E1; cbn [bind agree]; auto.
      destruct (fresh h (bd x1)) as [l1 h1] eqn:F. cbn [agree].
      apply fresh_at in F as (A & B & C & D). apply (pre_hook_shape c st0 _ x1 HR) in E1 as (S1 & S2 & S3 & S4 & S5). cbn [bm] in *.
      split; [rewrite A; destruct x1; reflexivity|]. split; [exact D|]. split.
      { subst l1. split; [cbn [old]; lia|]. split; [lia|]. intros k K. injection K as <-. lia. }
      rewrite A. repeat split; auto. eauto.
    + unfold pre_hook. cbn [bm]. rewrite E. cbn [agree]. destruct HR as [(W1 & W2 & W3 & W4) L]. cbn [bm bd] in *.
      split; [reflexivity|]. split; [apply framed_refl|]. split; [split; [cbn; auto|split; [lia|discriminate]]|].
      repeat split; auto. left. repeat split; auto.
      replace (1 <? kernel_width c)%Z with true in E by lia. destruct (all_starting m); auto; discriminate.
  - intros [[[h1 l1] w1] m1] x1 (-> & F1 & P1 & I1 & L1 & L2 & L3 & L4 & D1) _ _.
    eapply (agree_bind).
    { apply (conv1d_agree c m1 (size h) h1 l1 w1 P1); try congruence.
      destruct D1 as [(-> & -> & -> & D1)|D1]; auto. }
    intros [[y vs] h2] [y' tmp] (<- & -> & F2 & I2 & I3 & l2 & ol & -> & Lo & Eo & P2 & D2) _ _. cbn [agree].
    assert (F : framed (size h) h h2) by (eapply framed_trans; eauto).
    set (vs := s_temp_buffer c (padded_meta c m1) ol l2) in *.
    destruct (padded_meta_fields c m1) as (G1 & G2 & G3).
    split; [reflexivity|]. split; [|split; [|split]].
    + apply post_agree. intros i. rewrite <- Hst. unfold shown. destruct (st i) as [v|] eqn:Ev; auto. cbn. f_equal.
      apply (look_framed (size h)); auto. eapply Hin; eauto.
    + intros k. apply (proj1 F (Mine k)). exact I.
    + intros i v Ev. unfold s_post_hook in Ev. apply drop_ended_some in Ev as [Ev _]. apply set_views_some in Ev as [Ev|[Ev _]].
      * apply in_temp in Ev as (_ & _ & k & o & x & _ & _ & _ & _ & ->). cbn [vloc]. apply P2.
      * apply Hin in Ev. eapply old_le; [|exact Ev]. apply F.
    + intros i v k Ev Hv. unfold s_post_hook in Ev. apply drop_ended_some in Ev as [Ev Nd]. rewrite I2, I3 in Nd.
      apply set_views_some in Ev as [Ev|[Ev Nv]].
      * right. apply in_temp in Ev as (_ & Ae & j & o & x & _ & _ & H3 & H4 & ->). cbn [vloc] in Hv. subst l2.
        rewrite G1 in H3. rewrite G3 in H4.
        assert (all_ending m1 = false) by (unfold all_ending in *; now rewrite G3 in Ae).
        destruct D2 as [D2|[k2 D2]]; [|discriminate]. pose proof D2 as [D3 _].
        destruct D1 as [(-> & -> & -> & D1)|[k1 ->]]; [|discriminate]. injection D3 as ->.
        split; auto. split; [|exists j; auto].
        eapply stays_unpadded; eauto. apply HR.
      * left. split; auto. intros Hi. apply In_nth_error in Hi as [j Hj]. rewrite <- I1 in Hj.
        destruct (ended_or_kept m1 i j) as [K|K]; auto; try congruence.
        apply Nv. apply in_map_iff.
        assert (j < length (ids m1)) by (apply nth_error_Some; congruence).
        assert (Lp : length (lens (padded_meta c m1)) = length (ids m)).
        { unfold padded_meta. destruct (0 <? padn c); [|congruence]. cbn [with_lens lens].
          unfold pad_lens, add_where. destruct (all_starting_and_ending m1); [rewrite map_length; congruence|].
          destruct (any_starting_or_ending m1); [|congruence]. rewrite !map_length, !zip_length', map_length, zip_length'. lia. }
        destruct (nth_error ol j) as [o|] eqn:Ej; [|apply nth_error_None in Ej; rewrite Lo, Lp, <- I1 in Ej; lia].
        destruct (nth_error (lens (padded_meta c m1)) j) as [x|] eqn:Ex; [|apply nth_error_None in Ex; rewrite Lp, <- I1 in Ex; lia].
        exists (i, mkView l2 j (o * Z.of_nat (strd c)) x). split; auto. apply in_temp. split; [auto|]. split.
        { unfold all_ending, all_true. rewrite G3. destruct (forallb _ _) eqn:Ef; auto. rewrite forallb_forall in Ef.
          apply nth_error_In in K. apply Ef in K. discriminate. }
        exists j, o, x. rewrite G1, G3. auto.
Qed.

(* ---------- a run ---------- *)

Lemma put_mine h n rows k : mine (put h (Mine n) rows) k = if Nat.eqb k n then rows else mine h k.
Proof. reflexivity. Qed.

Lemma fed_ext : forall es (f g : nat -> list (list V)), (forall k, f k = g k) -> fed f es = fed g es.
Proof.
  induction es as [|[n rows|n w m] es IH]; intros f g E; cbn [fed]; auto.
  - apply IH. intros k. now rewrite E.
  - rewrite E. f_equal. auto.
Qed.

Lemma run_agree c : (1 < kernel_width c)%Z -> forall es h (st : views) st0,
  Forall one_row_each (fed (mine h) es) -> in_range h st -> (forall i, shown h st i = st0 i) -> patient c es ->
  (forall i v n e2 rows e3, st i = Some v -> vloc v = Mine n -> es = e2 ++ Write n rows :: e3 ->
     exists n' w' m', In (Call n' w' m') e2 /\ In i (ids m')) ->
  agree (fun p q => let '(ys, st', h') := p in let '(ys', st0') := q in ys = ys' /\ forall i, shown h' st' i = st0' i)
    (s_run c h st es) (conv_run c st0 (fed (mine h) es)).
Proof.
  intros Hk. induction es as [|[n rows|n w m] es IH]; intros h st st0 HR Hin Hst HP HI; cbn [s_run fed conv_run].
  - cbn. auto.
  - cbn [fed] in HR. apply (IH (put h (Mine n) rows) st st0); auto.
    + intros i. rewrite <- Hst. unfold shown. destruct (st i) as [v|] eqn:Ev; auto. cbn. f_equal. unfold look. f_equal.
      destruct (vloc v) as [k|k] eqn:Evl; auto. cbn [at_loc put mine]. destruct (Nat.eqb_spec k n); auto. subst.
      destruct (HI i v n [] rows es Ev Evl eq_refl) as (? & ? & ? & [] & _).
    + intros e1 n0 w0 m0 e2 rows0 e3 i E. apply (HP (Write n rows :: e1) n0 w0 m0 e2 rows0 e3 i). now rewrite E.
    + intros i v k e2 rows0 e3 Ev Evl E. destruct (HI i v k (Write n rows :: e2) rows0 e3 Ev Evl) as (n' & w' & m' & H1 & H2).
      { now rewrite E. }
      destruct H1 as [H1|H1]; [discriminate|]. eauto 6.
  - cbn [fed] in HR. inversion HR as [|? ? R1 R2]; subst.
    eapply agree_bind. { apply (call_agree c h st st0 n w m Hk R1 Hin Hst). }
    intros [[y st'] h'] [y' st0'] (<- & S1 & S2 & S3 & S4) _ _.
    rewrite (fed_ext es (mine h) (mine h')) in * by (intros; symmetry; apply S2).
    eapply agree_bind. { apply (IH h' st' st0'); auto.
      - intros e1 n0 w0 m0 e2 rows0 e3 i E. apply (HP (Call n w m :: e1) n0 w0 m0 e2 rows0 e3 i). now rewrite E.
      - intros i v k e2 rows0 e3 Ev Evl E. destruct (S4 i v k Ev Evl) as [[O1 O2]|(-> & O1 & O2)].
        + destruct (HI i v k (Call n w m :: e2) rows0 e3 O1 Evl) as (n' & w' & m' & H1 & H2). { now rewrite E. }
          destruct H1 as [H1|H1]; [|eauto 6]. injection H1 as -> -> ->. contradiction.
        + apply (HP [] n w m e2 rows0 e3 i); auto. cbn. now rewrite E. }
    intros [[ys st2] h2] [ys' st2'] (<- & T) _ _. cbn. auto.
Qed.

Theorem patient_run c h es : (1 < kernel_width c)%Z -> Forall one_row_each (fed (mine h) es) -> patient c es ->
  match s_run c h no_views es with
  | Ok (ys, st, h') => exists st0, conv_run c no_buffers (fed (mine h) es) = Ok (ys, st0) /\ forall i, shown h' st i = st0 i
  | Err e => conv_run c no_buffers (fed (mine h) es) = Err e
  end.
Proof.
  intros Hk HR HP. assert (A := run_agree c Hk es h no_views no_buffers HR).
  assert (B : agree (fun p q => let '(ys, st', h') := p in let '(ys', st0') := q in ys = ys' /\ forall i, shown h' st' i = st0' i)
    (s_run c h no_views es) (conv_run c no_buffers (fed (mine h) es))).
  { apply A; auto; discriminate. }
  unfold agree in B. destruct (s_run c h no_views es) as [[[ys st] h']|e], (conv_run c no_buffers (fed (mine h) es)) as [[ys' st0]|e'];
    try contradiction.
  - destruct B as [<- B]. eauto.
  - now subst.
Qed.

(* ---------- the caller's tensors ---------- *)

Lemma call_mine c h (st : views) n w m y st' h' : (1 < kernel_width c)%Z -> one_row_each (mkBatch w (mine h n) m) -> in_range h st ->
  s_call c h st n w m = Ok (y, st', h') -> (forall k, mine h' k = mine h k) /\ in_range h' st'.
Proof.
  intros Hk HR Hin E. assert (A := call_agree c h st (shown h st) n w m Hk HR Hin (fun i => eq_refl)). rewrite E in A.
  unfold agree in A. destruct (conv_call c (shown h st) _) as [[y' st0']|]; [|contradiction]. tauto.
Qed.

Theorem run_mine c : (1 < kernel_width c)%Z -> forall es h (st : views) ys st' h', Forall one_row_each (fed (mine h) es) -> in_range h st ->
  s_run c h st es = Ok (ys, st', h') -> forall k, mine h' k = written (mine h) es k.
Proof.
  intros Hk. induction es as [|[n rows|n w m] es IH]; intros h st ys st' h' HR Hin E k; cbn [s_run fed written] in *.
  - injection E as _ _ <-. reflexivity.
  - exact (IH (put h (Mine n) rows) st ys st' h' HR Hin E k).
  - inversion HR as [|? ? R1 R2]; subst. apply bind_ok in E as ([[y st1] h1] & E1 & E). apply bind_ok in E as ([[ys2 st2] h2] & E2 & E).
    injection E as _ _ <-. apply (call_mine c h st n w m y st1 h1 Hk R1 Hin) in E1 as [M1 M2].
    rewrite (IH h1 st1 ys2 st2 h2); auto.
    + clear -M1. revert M1. generalize (mine h1), (mine h). induction es as [|[a r|a b d] es IH]; intros f g E; cbn [written]; auto.
      apply IH. intros j. now rewrite E.
    + erewrite fed_ext; [exact R2|auto].
Qed.

(* ---------- what a buffer of an unpadded call is ---------- *)

Lemma zmax_in l mx : zmax l = Ok mx -> In mx l.
Proof.
  destruct l as [|a l]; [discriminate|]. cbn [zmax]. intros E. injection E as <-. revert a. induction l as [|b l IH]; intros a; cbn [fold_left].
  { left. reflexivity. }
  destruct (IH (Z.max a b)) as [E|E]; [|right; right; exact E]. rewrite <- E. destruct (Z.max_spec a b) as [[_ ->]|[_ ->]]; cbn; auto.
Qed.

Lemma set_views_covered vs : forall (s : @views) i, In i (map fst vs) -> fold_left set_view vs s i <> None.
Proof.
  assert (K : forall vs (s : @views) i, s i <> None -> fold_left set_view vs s i <> None).
  { clear. induction vs as [|[j u] vs IH]; intros s i H; cbn; auto. apply IH. unfold set_view. cbn. destruct (String.eqb i j); congruence. }
  induction vs as [|[j u] vs IH]; intros s i H; cbn in *; [tauto|]. destruct H as [->|H]; auto.
  apply K. unfold set_view. cbn. rewrite String.eqb_refl. discriminate.
Qed.

Theorem held_view c h (st : views) n w m y st' h' i j L : valid_cfg c -> 1 < kspan c -> one_row_each (mkBatch w (mine h n) m) ->
  NoDup (ids m) -> unpadded c w m -> s_call c h st n w m = Ok (y, st', h') ->
  nth_error (ids m) j = Some i -> nth_error (eos m) j = Some false -> nth_error (lens m) j = Some (Z.of_nat L) ->
  let e := L + padn c in
  st' i = Some (mkView (Mine n) j (Z.of_nat (nwin c e * strd c)) (Z.of_nat e)) /\ forall k, mine h' k = mine h k.
Proof.
  intros Hv Hk [W Lr] ND [U1 U2] E Hi He Hl e. cbn [bm bd] in *. unfold s_call in E.
  apply bind_ok in E as ([[[h1 l1] w1] m1] & E1 & E).
  assert (As : all_starting m = true). { unfold all_starting, all_true. apply forallb_forall. auto. }
  unfold s_pre_hook in E1. rewrite As, andb_false_r in E1. injection E1 as <- <- <- <-.
  apply bind_ok in E as ([[y2 vs] h2] & E1 & E). injection E as -> <- ->.
  assert (Ae : all_ending m = false).
  { unfold all_ending, all_true. destruct (forallb _ _) eqn:Ef; auto. rewrite forallb_forall in Ef. apply nth_error_In in He. apply Ef in He. discriminate. }
  unfold s_conv1d in E1. fold (padded_meta c m) in E1.
  assert (N : nth_error (lens (padded_meta c m)) j = Some (Z.of_nat e)).
  { destruct (wf_of_rows _ W) as (ch & rs & ->). unfold padded_meta, e. destruct (0 <? padn c) eqn:Ep.
    - cbn [with_lens lens]. rewrite pad_lens_rows. cbn [lens eos sos of_rows] in *.
      apply nth_error_map' in Hl as (r & Hr & Hl). apply nth_error_map' in He as (r' & Hr' & He). rewrite Hr in Hr'. injection Hr' as <-.
      rewrite (map_nth_error _ _ _ Hr), <- He. rewrite (U1 (rsos r)) by (apply in_map; eapply nth_error_In; eauto). f_equal. lia.
    - rewrite Hl. f_equal. lia. }
  destruct (padded_meta_fields c m) as (G1 & G2 & G3).
  assert (As1 : all_starting (padded_meta c m) = true) by (unfold all_starting; now rewrite G2).
  assert (Ase : all_starting_and_ending (padded_meta c m) = false)
    by (unfold all_starting_and_ending, all_ending; rewrite G3; unfold all_ending in Ae; now rewrite Ae, andb_false_r).
  apply bind_ok in E1 as ([[[h3 l3] w3] np] & E1 & E).
  assert (K : h3 = h /\ l3 = Mine n).
  { rewrite Ase in E1. destruct (0 <? padn c) eqn:Ep; cbn [negb andb] in E1; [|injection E1 as <- <- _ _; auto].
    apply bind_ok in E1 as ([[h4 l4] w4] & E1 & E2). injection E2 as <- <- _ _. unfold s_apply_padding in E1.
    apply bind_ok in E1 as (mx & E2 & E1).
    assert (mx <= Z.of_nat w)%Z.
    { destruct U2 as [U2|U2]; [lia|]. unfold max_length in E2. apply zmax_in in E2.
      destruct (wf_of_rows _ W) as (ch & rs & ->). unfold padded_meta in E2. rewrite Ep in E2. cbn [with_lens lens] in E2.
      rewrite pad_lens_rows in E2. apply in_map_iff in E2 as (r & <- & Hr). apply In_nth_error in Hr as [q Hq].
      cbn [sos eos lens of_rows] in *.
      specialize (U2 q (rlen r) (reos r) (map_nth_error _ _ _ Hq) (map_nth_error _ _ _ Hq)).
      rewrite (U1 (rsos r)) by (apply in_map; eapply nth_error_In; eauto). lia. }
    apply bind_ok in E1 as ([[h5 l5] w5] & E3 & E1). replace (0 <? mx - Z.of_nat w)%Z with false in E3 by lia. injection E3 as <- <- _.
    rewrite As1, andb_false_r in E1. injection E1 as <- <- _. auto. }
  destruct K as [-> ->].
  apply bind_ok in E as ([wo out] & _ & E). apply bind_ok in E as (mask & _ & E). injection E as <- <- <-.
  split; [|auto]. unfold s_post_hook. cbn [bm with_lens ids eos]. rewrite G1, G3.
  fold (drop_ended (zip (ids m) (eos m))).
  set (vs := s_temp_buffer c (padded_meta c m) (map (output_length c) (lens (padded_meta c m))) (Mine n)).
  assert (Nt : ~ In (i, true) (zip (ids m) (eos m))).
  { intros Hin. apply in_zip_nth in Hin as (q & Q1 & Q2). cbn [fst snd] in *.
    assert (q = j). { apply (proj1 (NoDup_nth_error (ids m)) ND); [apply nth_error_Some; congruence|congruence]. }
    subst. congruence. }
  change (drop_ended (zip (ids m) (eos m)) (fold_left set_view vs st) i = Some (mkView (Mine n) j (Z.of_nat (nwin c e * strd c)) (Z.of_nat e))).
  rewrite drop_ended_keep by auto.
  assert (Hin : In (i, mkView (Mine n) j (Z.of_nat (nwin c e * strd c)) (Z.of_nat e)) vs).
  { apply in_temp. split; [rewrite kernel_width_eq by auto; lia|]. split; [unfold all_ending in *; now rewrite G3|].
    exists j, (output_length c (Z.of_nat e)), (Z.of_nat e). rewrite G1, G3, (map_nth_error _ _ _ N).
    rewrite output_length_nwin by auto. rewrite <- Nat2Z.inj_mul. auto. }
  destruct (fold_left set_view vs st i) as [v|] eqn:Ev.
  - apply set_views_some in Ev as [Ev|[_ Ev]].
    + f_equal. apply in_temp in Ev as (_ & _ & q & o & x & Q1 & Q2 & Q3 & Q4 & ->). rewrite G1 in Q3.
      assert (q = j). { apply (proj1 (NoDup_nth_error (ids m)) ND); [apply nth_error_Some; congruence|congruence]. }
      subst q. rewrite N in Q2. injection Q2 as <-. rewrite (map_nth_error _ _ _ N) in Q1. injection Q1 as <-.
      rewrite output_length_nwin by auto. now rewrite <- Nat2Z.inj_mul.
    + exfalso. apply Ev. apply in_map_iff. eexists. split; [|exact Hin]. reflexivity.
  - exfalso. revert Ev. apply set_views_covered. apply in_map_iff. eexists. split; [|exact Hin]. reflexivity.
Qed.

Theorem held_written c h (st : views) n w m y st' h' i j L : valid_cfg c -> 1 < kspan c -> one_row_each (mkBatch w (mine h n) m) ->
  NoDup (ids m) -> unpadded c w m -> s_call c h st n w m = Ok (y, st', h') ->
  nth_error (ids m) j = Some i -> nth_error (eos m) j = Some false -> nth_error (lens m) j = Some (Z.of_nat L) ->
  forall rows, shown (put h' (Mine n) rows) st' i
    = Some (skipn (nwin c (L + padn c) * strd c) (firstn (L + padn c) (nth j rows []))).
Proof.
  intros Hv Hk HR ND HU E Hi He Hl rows. destruct (held_view c h st n w m y st' h' i j L Hv Hk HR ND HU E Hi He Hl) as [A _].
  unfold shown. rewrite A. cbn [option_map]. f_equal. unfold look. cbn [vloc vrow vfrom vto at_loc put mine]. rewrite Nat.eqb_refl.
  unfold row_slice. change (tensor_slice ?r (mkSlice (Some ?a) (Some ?b) None)) with (sub_list r a b).
  rewrite sub_list_skip by lia. now rewrite !Nat2Z.id.
Qed.

End StoreProofs.

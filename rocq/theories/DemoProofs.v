(** Proofs about the demo dataset (Demo.v). *)

From Coq Require Import String List ZArith Bool Lia Permutation.
From Verif Require Import Py Meta MetaSpec MetaProofs MetaBatchProofs Pad Data DataSpec DataProofs DataDropProofs PartitionProofs Demo DemoSpec.
Import ListNotations.
From Coq Require Import ZifyBool.
Open Scope Z_scope.

(* ---------- split_datasets ---------- *)

Lemma first_divisor_spec b : forall n, (1 <= n)%nat ->
  exists d, first_divisor b n = Some d /\ largest_divisor d (Z.of_nat n) b.
Proof.
  induction n as [|n IH]; [lia|]. intros _. cbn [first_divisor].
  destruct (Z.eqb_spec (b mod Z.of_nat (S n)) 0) as [E|E].
  - exists (Z.of_nat (S n)). split; [reflexivity|]. split; [lia|]. split; [exact E|]. intros k Hk. lia.
  - destruct n as [|n].
    { exfalso. apply E. change (Z.of_nat 1) with 1. apply Z.mod_1_r. }
    destruct (IH ltac:(lia)) as (d & D1 & D2 & D3 & D4). exists d. split; [exact D1|]. split; [lia|]. split; [exact D3|].
    intros k Hk. destruct (Z.eq_dec k (Z.of_nat (S (S n)))) as [->|N]; [exact E|]. apply D4. lia.
Qed.

Lemma names_get i : (i < 52)%nat -> String.get i worker_names = Some (Ascii.ascii_of_nat (65 + Nat.modulo i 26)).
Proof. intros H. do 52 (destruct i as [|i]; [vm_compute; reflexivity|]). lia. Qed.
Lemma names_end i : (52 <= i)%nat -> String.get i worker_names = None.
Proof. intros H. do 52 (destruct i as [|i]; [lia|]). destruct i; reflexivity. Qed.

Lemma mapM_err {A B} (f : A -> res B) (g : A -> B) e a l2 : forall l1, (forall x, In x l1 -> f x = Ok (g x)) -> f a = Err e ->
  mapM f (l1 ++ a :: l2) = Err e.
Proof.
  induction l1 as [|b l1 IH]; intros H1 H2; cbn [app]; rewrite mapM_cons.
  - now rewrite H2.
  - rewrite (H1 b) by now left. cbn [bind]. rewrite IH; auto. intros x Hx. apply H1. now right.
Qed.

Section Split.
Context {X : Type}.
Implicit Types data : list (list X).

Theorem split_datasets_spec data bs mw order M : 1 <= bs -> 1 <= mw -> Permutation order (seq 0 (length data)) ->
  exists n, largest_divisor n (Z.min mw bs) bs /\
    (52 < n -> split_datasets data bs mw order = Err IndexError) /\
    (n <= 52 -> exists ds, split_datasets data bs mw order = Ok ds /\ length ds = Z.to_nat n /\
       Permutation (List.concat (map d_list ds)) data /\ n * (bs / n) = bs /\
       (forall i d, nth_error ds i = Some d ->
          d_batch d = bs / n /\ d_shuffle d = false /\ d_drop d = false /\ d_name d = Some (letter i)) /\
       (0 <= M -> Forall (fun x => zlen x <= M) data -> balanced M (map (fun d => zlen (List.concat (d_list d))) ds))).
Proof.
  intros Hb Hm Ho. unfold split_datasets.
  replace (if bs <? mw then bs else mw) with (Z.min mw bs) by (destruct (Z.ltb_spec bs mw); lia).
  destruct (first_divisor_spec bs (Z.to_nat (Z.min mw bs)) ltac:(lia)) as (n & -> & Hn). rewrite Z2Nat.id in Hn by lia.
  exists n. split; [exact Hn|]. destruct Hn as (Hn & Hdiv & _).
  destruct (partition_spec (map zlen data) n false true order (seq 0 (length (map zlen data))) M) as (parts & idxs & Ep & Hlen & Hparts & Hpp & Hbal);
    [lia|reflexivity|rewrite map_length; auto|auto|].
  rewrite map_length in *.
  assert (Epart : demo_partition (map zlen data) n false true order [] = Ok (parts, idxs)) by exact Ep. rewrite Epart. cbn [bind]. clear Ep Epart.
  assert (Hrange : Forall (Forall (fun i => (i < length data)%nat)) idxs).
  { apply Forall_forall. intros p Hp. apply Forall_forall. intros i Hi. assert (G : In i (List.concat idxs)) by (apply in_concat; eauto).
    apply (Permutation_in _ Hpp), in_seq in G. lia. }
  set (pick := fun i => nth i data []).
  rewrite (mapM_ok _ (map pick)).
  2:{ intros p Hp. rewrite Forall_forall in Hrange. specialize (Hrange p Hp). apply mapM_ok. intros i Hi.
      rewrite Forall_forall in Hrange. rewrite (nth_error_nth' data [] (Hrange i Hi)). reflexivity. }
  cbn [bind]. set (lists := map (map pick) idxs).
  assert (Hcat : Permutation (List.concat lists) data).
  { unfold lists. rewrite <- concat_map. rewrite Hpp. unfold pick. rewrite nth_seq_map. reflexivity. }
  assert (HL : length lists = Z.to_nat n) by (unfold lists; now rewrite map_length).
  replace (n =? 0) with false by lia. cbv zeta. rewrite py_range_seq by lia. replace (n - 0) with n by lia. change (Z.to_nat 0) with 0%nat.
  split.
  - intros Hbig. replace (Z.to_nat n) with (52 + S (Z.to_nat n - 53))%nat by lia. rewrite seq_app, map_app. change (map Z.of_nat (seq (0 + 52) (S ?m))) with (Z.of_nat 52 :: map Z.of_nat (seq 53 m)).
    apply (mapM_err _ (fun i => mkDset (nth (Z.to_nat i) lists []) (bs / n) false false (Some (letter (Z.to_nat i))))).
    + intros z Hz. apply in_map_iff in Hz as (i & <- & Hi). apply in_seq in Hi. rewrite Nat2Z.id, names_get by lia.
      rewrite (nth_error_nth' lists []) by lia. reflexivity.
    + rewrite Nat2Z.id. rewrite names_end by lia. now destruct (nth_error lists 52).
  - intros Hsmall. set (mk := fun i => mkDset (nth i lists []) (bs / n) false false (Some (letter i))).
    exists (map mk (seq 0 (Z.to_nat n))). split.
    { rewrite (mapM_ok _ (fun i => mk (Z.to_nat i))).
      - f_equal. rewrite map_map. apply map_ext. intros i. now rewrite Nat2Z.id.
      - intros z Hz. apply in_map_iff in Hz as (i & <- & Hi). apply in_seq in Hi. rewrite Nat2Z.id, names_get by lia.
        rewrite (nth_error_nth' lists []) by lia. reflexivity. }
    assert (EL : map d_list (map mk (seq 0 (Z.to_nat n))) = lists).
    { rewrite map_map. unfold mk. cbn [d_list]. rewrite <- HL. apply nth_seq_map. }
    split; [now rewrite map_length, seq_length|]. split; [rewrite EL; exact Hcat|].
    split; [pose proof (Z.div_mod bs n ltac:(lia)); lia|]. split.
    + intros i d Hd. rewrite nth_error_map in Hd. destruct (nth_error (seq 0 (Z.to_nat n)) i) as [j|] eqn:Ej; [|discriminate].
      cbn in Hd. injection Hd as <-. assert (Hi : (i < Z.to_nat n)%nat) by (rewrite <- (seq_length (Z.to_nat n) 0); apply nth_error_Some; congruence).
      rewrite (nth_error_nth' _ 0%nat) in Ej by (now rewrite seq_length). rewrite seq_nth in Ej by exact Hi. cbn in Ej. injection Ej as <-. cbn. auto.
    + intros HM0 HM. rewrite <- (map_map d_list (fun l => zlen (List.concat l))), EL.
      assert (ES : map (fun l => zlen (List.concat l)) lists = map zsum parts).
      { unfold lists. rewrite Hparts, !map_map. apply map_ext_in. intros p Hp. rewrite Forall_forall in Hrange. specialize (Hrange p Hp).
        clear - Hrange. induction Hrange as [|i p Hi Hp IH]; [reflexivity|].
        cbn [map List.concat]. change (zsum (?a :: ?l)) with (a + zsum l). rewrite <- IH. rewrite zlen_app. f_equal. exact (eq_sym (map_nth zlen data [] i)). }
      rewrite ES. assert (HB : balanced M (map zsum parts)).
      { apply Hbal; [exact HM0|]. apply Forall_forall. intros v Hv. apply in_map_iff in Hv as (x & <- & Hx). rewrite Forall_forall in HM.
        specialize (HM x Hx). unfold zlen in *. lia. }
      exact HB.
Qed.
End Split.

(* ---------- lists of which at most one counts ---------- *)

Section Sparse.
Context {A B : Type} (f : A -> list B).
(** At most one of the two counts. *)
Definition apart (x y : A) : Prop := f x = [] \/ f y = [].

Lemma apart_perm l l' : Permutation l l' -> ForallOrdPairs apart l -> ForallOrdPairs apart l'.
Proof.
  induction 1 as [|x l l' Hp IH|x y l|l l' l'' H1 IH1 H2 IH2]; intros H; auto.
  - inversion H as [|? ? Hx Hl]; subst. constructor; [|now apply IH]. rewrite Forall_forall in *. intros z Hz. apply Hx.
    apply (Permutation_in _ (Permutation_sym Hp)). exact Hz.
  - inversion H as [|? ? Hx Hl]; subst. inversion Hl as [|? ? Hy Hl2]; subst. inversion Hx as [|? ? Hxy Hx2]; subst.
    constructor; [constructor; [destruct Hxy; [now right|now left]|exact Hy]|]. constructor; auto.
Qed.

Lemma none_concat l : concat (map f l) = [] <-> Forall (fun x => f x = []) l.
Proof.
  induction l as [|x l IH]; cbn [map concat]; [split; auto|]. split.
  - intros H. apply app_eq_nil in H as [H1 H2]. constructor; [exact H1|]. now apply IH.
  - intros H. inversion H as [|? ? H1 H2]; subst. rewrite H1. now apply IH.
Qed.

Lemma apart_one l : ForallOrdPairs apart l -> forall x, In x l -> f x <> [] -> concat (map f l) = f x.
Proof.
  induction 1 as [|y l Hy Hl IH]; intros x Hx N; [destruct Hx|]. cbn [map concat]. destruct Hx as [<-|Hx].
  - assert (E : concat (map f l) = []).
    { apply none_concat. rewrite Forall_forall in *. intros z Hz. destruct (Hy z Hz); [congruence|auto]. }
    now rewrite E, app_nil_r.
  - rewrite (IH x Hx N). rewrite Forall_forall in Hy. destruct (Hy x Hx) as [E|E]; [now rewrite E|congruence].
Qed.

Lemma apart_perm_concat l l' : Permutation l l' -> ForallOrdPairs apart l -> concat (map f l) = concat (map f l').
Proof.
  intros Hp H. destruct (concat (map f l)) as [|b t] eqn:E.
  - apply none_concat in E. symmetry. apply none_concat. rewrite Forall_forall in *. intros x Hx. apply E, (Permutation_in _ (Permutation_sym Hp)), Hx.
  - assert (G : exists x, In x l /\ f x <> []).
    { clear - E. induction l as [|x l IH]; [discriminate|]. cbn [map concat] in E. destruct (f x) eqn:F.
      - destruct (IH E) as (y & Y1 & Y2). exists y. split; [now right|auto].
      - exists x. split; [now left|congruence]. }
    destruct G as (x & X1 & X2). rewrite <- E, (apart_one l H x X1 X2). symmetry.
    apply apart_one; [eapply apart_perm; eauto|eapply Permutation_in; eauto|exact X2].
Qed.

Lemma apart_app l1 l2 : ForallOrdPairs apart (l1 ++ l2) ->
  ForallOrdPairs apart l1 /\ ForallOrdPairs apart l2 /\ (concat (map f l1) = [] \/ concat (map f l2) = []).
Proof.
  induction l1 as [|x l1 IH]; cbn [app]; intros H.
  - split; [constructor|]. split; [exact H|]. now left.
  - inversion H as [|? ? Hx Hl]; subst. destruct (IH Hl) as (I1 & I2 & I3). apply Forall_app in Hx as [Hx1 Hx2].
    split; [constructor; auto|]. split; [exact I2|]. cbn [map concat]. destruct I3 as [I3|I3]; [|now right]. rewrite I3, app_nil_r.
    destruct (f x) as [|b t] eqn:E; [now left|]. right. apply none_concat. rewrite Forall_forall in *. intros y Hy. destruct (Hx2 y Hy) as [G|G]; [|exact G]. congruence.
Qed.
End Sparse.

Lemma apart_concat {A B} (f : A -> list B) (LL : list (list A)) : ForallOrdPairs (apart f) (concat LL) ->
  ForallOrdPairs (apart (fun l => concat (map f l))) LL /\ Forall (ForallOrdPairs (apart f)) LL.
Proof.
  induction LL as [|l LL IH]; cbn [concat]; intros H; [split; constructor|].
  apply apart_app in H as (H1 & H2 & H3). destruct (IH H2) as (I1 & I2). split; [|constructor; auto].
  constructor; [|exact I1]. apply Forall_forall. intros m Hm. destruct H3 as [H3|H3]; [now left|right].
  apply none_concat. apply none_concat in H3. rewrite Forall_forall in *. intros x Hx. apply H3. apply in_concat. eauto.
Qed.

(* ---------- rounds ---------- *)

Lemma rounds_filter {A} (P : A -> bool) : forall ss : list (list (list A)),
  ForallOrdPairs (apart (fun s => filter P (concat s))) ss ->
  filter P (concat (rounds ss)) = concat (map (fun s => filter P (concat s)) ss) /\
  (Forall (Forall (fun b => (length (filter P b) <= 1)%nat)) ss -> Forall (fun b => (length (filter P b) <= 1)%nat) (rounds ss)).
Proof.
  induction 1 as [|s ss Hs Hss [IH1 IH2]]; [split; [reflexivity|constructor]|].
  cbn [rounds fold_right map concat]. fold (rounds ss).
  assert (E : filter P (concat s) = [] \/ filter P (concat (rounds ss)) = []).
  { destruct (filter P (concat s)) as [|b t] eqn:F; [now left|right]. rewrite IH1. apply none_concat. rewrite Forall_forall in *.
    intros x Hx. destruct (Hs x Hx) as [G|G]; [congruence|exact G]. }
  split; [rewrite mapp_filter by exact E; now rewrite IH1|].
  intros H. inversion H as [|? ? H1 H2]; subst. specialize (IH2 H2). clear - E H1 IH2. 
  revert E H1 IH2. generalize (rounds ss) as r. induction s as [|a s IH]; intros r E H1 H2; [exact H2|].
  inversion H1 as [|? ? Ha Hs]; subst. destruct r as [|b r]; cbn [mapp]; [rewrite mapp_nil_r; constructor; auto|].
  inversion H2 as [|? ? Hb Hr]; subst. cbn [concat] in E. rewrite !filter_app in E. constructor.
  - rewrite filter_app, app_length. destruct E as [E|E]; apply app_eq_nil in E as [E1 E2]; rewrite E1; cbn [length]; lia.
  - apply IH; auto. destruct E as [E|E]; apply app_eq_nil in E as [E1 E2]; auto.
Qed.

Lemma mapp_perm {A} : forall s r : list (list A), Permutation (concat (mapp s r)) (concat s ++ concat r).
Proof.
  induction s as [|a s IH]; intros r; [reflexivity|]. destruct r as [|b r]; cbn [mapp concat].
  - rewrite mapp_nil_r, !app_nil_r. reflexivity.
  - rewrite IH. rewrite <- !app_assoc. apply Permutation_app_head. rewrite !app_assoc. apply Permutation_app_tail. apply Permutation_app_comm.
Qed.
Lemma rounds_perm {A} (ss : list (list (list A))) : Permutation (concat (rounds ss)) (concat (map (@concat A) ss)).
Proof. induction ss as [|s ss IH]; cbn [rounds fold_right map concat]; [reflexivity|]. fold (rounds ss). rewrite mapp_perm. now apply Permutation_app_head. Qed.

Lemma rounds_sizes {A} : forall (ss : list (list (list A))) ns,
  Forall2 (fun n s => Forall (fun b => (1 <= length b <= n)%nat) s) ns ss -> Forall (fun b => (1 <= length b <= list_sum ns)%nat) (rounds ss).
Proof.
  intros ss ns H. induction H as [|n s ns ss Hs H IH]; [constructor|]. cbn [rounds fold_right]. fold (rounds ss).
  apply (mapp_Forall2 (fun b => (1 <= length b <= n)%nat) (fun b => (1 <= length b <= list_sum ns)%nat)); auto.
  - intros a Ha. change (list_sum (n :: ns)) with (n + list_sum ns)%nat. lia.
  - intros a Ha. change (list_sum (n :: ns)) with (n + list_sum ns)%nat. lia.
  - intros a b Ha Hb. change (list_sum (n :: ns)) with (n + list_sum ns)%nat. rewrite app_length. lia.
Qed.

(* ---------- every bs-th example ---------- *)

Lemma NoDup_concat_map {A B} (g : A -> list B) l : NoDup l -> (forall a, In a l -> NoDup (g a)) ->
  (forall a b x, In a l -> In b l -> In x (g a) -> In x (g b) -> a = b) -> NoDup (concat (map g l)).
Proof.
  induction l as [|a l IH]; intros N H1 H2; cbn [map concat]; [constructor|]. inversion N as [|? ? Na Nl]; subst.
  apply NoDup_app_disj.
  - apply H1. now left.
  - apply IH; auto; [intros; apply H1; now right|]. intros b c x Hb Hc. apply H2; now right.
  - intros x Hx Hy. apply in_concat in Hy as (m & Hm & Hxm). apply in_map_iff in Hm as (b & <- & Hb).
    assert (a = b) by (apply (H2 a b x); auto; [now left|now right]). subst b. tauto.
Qed.

Lemma picks_perm {A} (l : list A) bs : 0 < bs -> Permutation (concat (map (picks l bs) (positions bs))) l.
Proof.
  intros Hb. unfold picks.
  assert (E : forall ps, concat (map (fun i => at_positions l (slice_positions (zlen l) (Some i) None bs)) ps)
                = at_positions l (concat (map (fun i => slice_positions (zlen l) (Some i) None bs) ps))).
  { induction ps as [|i ps IH]; [reflexivity|]. cbn [map concat]. rewrite IH. unfold at_positions. now rewrite flat_map_app. }
  rewrite E. clear E.
  assert (F : at_positions l (positions (zlen l)) = l).
  { unfold at_positions, positions, zlen. rewrite Nat2Z.id. rewrite flat_map_concat_map, map_map.
    rewrite <- (map_map (fun k => k) (fun k => match nth_error l (Z.to_nat (Z.of_nat k)) with Some a => [a] | None => [] end)), map_id.
    clear. induction l as [|a l IH] using rev_ind; [reflexivity|]. rewrite app_length, seq_app, map_app, concat_app. cbn [length Nat.add seq map concat].
    rewrite Nat2Z.id, nth_error_app2, Nat.sub_diag by lia. cbn [nth_error]. rewrite app_nil_r. f_equal. etransitivity; [|exact IH]. f_equal. apply map_ext_in.
    intros k Hk. apply in_seq in Hk. rewrite Nat2Z.id, nth_error_app1 by lia. reflexivity. }
  apply (Permutation_trans (l' := at_positions l (positions (zlen l)))); [|rewrite F; reflexivity]. unfold at_positions. apply Permutation_flat_map. apply NoDup_Permutation.
  - apply NoDup_concat_map; [apply positions_NoDup|intros; apply NoDup_filter, positions_NoDup|].
    intros i j p Hi Hj Hp Hq. apply pos_range in Hi, Hj.
    assert (G : forall i, 0 <= i < bs -> In p (slice_positions (zlen l) (Some i) None bs) -> i = p mod bs).
    { clear. intros i Hi Hp. apply filter_In in Hp as [H1 Hp]. unfold in_slice, slice_lo, slice_end in Hp. replace (i <? 0) with false in Hp by lia.
      unfold positions in H1. apply in_map_iff in H1 as (k & <- & Hk). apply in_seq in Hk. 
      replace (Z.min i (zlen l)) with i in Hp by (destruct (Z.min_spec i (zlen l)); lia).
      assert (E : (Z.of_nat k - i) mod bs = 0) by lia. apply Z.mod_divide in E; [|lia]. destruct E as (q & E).
      replace (Z.of_nat k) with (i + q * bs) by lia. rewrite Z.mod_add by lia. now rewrite Z.mod_small. }
    rewrite (G i), (G j); auto.
  - apply positions_NoDup.
  - intros p. rewrite in_concat. split.
    + intros (m & Hm & Hp). apply in_map_iff in Hm as (i & <- & Hi). now apply filter_In in Hp.
    + intros Hp. exists (slice_positions (zlen l) (Some (p mod bs)) None bs). split.
      * apply in_map_iff. exists (p mod bs). split; [reflexivity|]. unfold positions. apply in_map_iff. exists (Z.to_nat (p mod bs)).
        pose proof (Z.mod_pos_bound p bs Hb). split; [lia|]. apply in_seq. lia.
      * apply filter_In. split; [exact Hp|]. unfold positions in Hp. apply in_map_iff in Hp as (k & <- & Hk). apply in_seq in Hk.
        unfold in_slice, slice_lo, slice_hi, slice_end. pose proof (Z.mod_pos_bound (Z.of_nat k) bs Hb). pose proof (Z.mod_le (Z.of_nat k) bs ltac:(lia) Hb).
        replace (Z.of_nat k mod bs <? 0) with false by lia. rewrite Z.min_l by lia.
        assert (E : (Z.of_nat k - Z.of_nat k mod bs) mod bs = 0) by (rewrite Zminus_mod, Z.mod_mod, Z.sub_diag by lia; apply Z.mod_0_l; lia). lia.
Qed.

(* ---------- one dataset ---------- *)

Section Deliver.
Context {X : Type}.
Implicit Types (d : dset X) (ls : list (list X)).

Definition item d (x : X) : X * option string := (x, d_name d).
(** The streams of the dataset: every d_batch d-th example. *)
Definition streams_of d ls : list (list (X * option string)) :=
  map (fun i => map (item d) (concat (picks ls (d_batch d) i))) (positions (d_batch d)).
Definition run_of d ls : list (list (X * option string)) := rounds (map (map (fun a => [a])) (streams_of d ls)).

Lemma demo_streams_closed d sh : 0 < d_batch d ->
  let ls := if d_shuffle d then sh else d_list d in
  demo_streams d sh = if d_drop d then gen_of (zips (streams_of d ls)) else gen_of (run_of d ls).
Proof.
  intros Hb. cbv zeta. unfold demo_streams. rewrite slices_ok by exact Hb. cbn [bind gres].
  assert (E : map (demo_stream d) (map (picks (if d_shuffle d then sh else d_list d) (d_batch d)) (positions (d_batch d)))
              = map gen_of (streams_of d (if d_shuffle d then sh else d_list d))).
  { unfold streams_of. rewrite !map_map. apply map_ext. intros i. unfold demo_stream, demo_process. rewrite concat_map, <- chain_of. f_equal.
    now rewrite map_map. }
  rewrite E. destruct (d_drop d).
  - apply zip_gens_of.
  - unfold run_of. apply zip_longest_singles.
Qed.

Lemma filter_map {A B} (g : A -> B) (P : B -> bool) l : filter P (map g l) = map g (filter (fun a => P (g a)) l).
Proof. induction l as [|a l IH]; [reflexivity|]. cbn [map filter]. destruct (P (g a)); cbn [map]; now rewrite IH. Qed.
Lemma filter_concat {A} (P : A -> bool) (ll : list (list A)) : filter P (concat ll) = concat (map (filter P) ll).
Proof. induction ll as [|l ll IH]; [reflexivity|]. cbn [concat map]. now rewrite filter_app, IH. Qed.
Lemma concat_concat {A} (lll : list (list (list A))) : concat (concat lll) = concat (map (@concat A) lll).
Proof. induction lll as [|a l IH]; [reflexivity|]. cbn [concat map]. now rewrite concat_app, IH. Qed.

Context (owner : X -> nat) (k : nat).
Let P (it : X * option string) : bool := Nat.eqb (owner (fst it)) k.
Let f (l : list X) : list X := chunks_of owner k l.

Lemma stream_filter d (l : list (list X)) :
  filter P (concat (map (fun a => [a]) (map (item d) (concat l)))) = map (item d) (concat (map f l)).
Proof.
  rewrite concat_singletons, filter_map. f_equal. unfold f, chunks_of. now rewrite <- filter_concat.
Qed.

Lemma apart_map {A B C} (g : A -> B) (h : B -> list C) l : ForallOrdPairs (apart (fun a => h (g a))) l -> ForallOrdPairs (apart h) (map g l).
Proof.
  induction 1 as [|a l Ha Hl IH]; cbn [map]; constructor; auto. rewrite Forall_forall in *. intros b Hb. apply in_map_iff in Hb as (c & <- & Hc).
  exact (Ha c Hc).
Qed.
Lemma apart_ext {A B C} (g : A -> list B) (h : A -> list C) l : (forall a, In a l -> g a = [] -> h a = []) ->
  ForallOrdPairs (apart g) l -> ForallOrdPairs (apart h) l.
Proof.
  intros E. induction 1 as [|a l Ha Hl IH]; constructor.
  - rewrite Forall_forall in *. intros b Hb. destruct (Ha b Hb) as [G|G]; [left|right]; apply E; auto; [now left|now right].
  - apply IH. intros b Hb. apply E. now right.
Qed.

Lemma run_filter d ls : 0 < d_batch d -> ForallOrdPairs (apart f) ls ->
  filter P (concat (run_of d ls)) = map (item d) (concat (map f ls)) /\
  Forall (fun b => (length (filter P b) <= 1)%nat) (run_of d ls).
Proof.
  intros Hb H. pose proof (picks_perm ls (d_batch d) Hb) as HP.
  pose proof (apart_perm f _ _ (Permutation_sym HP) H) as H'. destruct (apart_concat f _ H') as [H1 _].
  unfold run_of, streams_of. rewrite map_map.
  destruct (rounds_filter P (map (fun i => map (fun a => [a]) (map (item d) (concat (picks ls (d_batch d) i)))) (positions (d_batch d)))) as [R1 R2].
  { apply apart_map. refine (apart_ext (fun i => concat (map f (picks ls (d_batch d) i))) _ _ _ _).
    - intros i _ E. now rewrite stream_filter, E.
    - clear - H1. induction (positions (d_batch d)) as [|i is IH]; [constructor|]. cbn [map] in H1. inversion H1 as [|? ? G1 G2]; subst.
      constructor; [|now apply IH]. rewrite Forall_forall in *. intros j Hj. apply (G1 (picks ls (d_batch d) j)). now apply in_map. }
  split.
  - rewrite R1, map_map. rewrite (map_ext _ (fun i => map (item d) (concat (map f (picks ls (d_batch d) i))))) by (intros i; apply stream_filter).
    rewrite (apart_perm_concat f _ _ (Permutation_sym HP) H). rewrite (concat_map f), concat_concat, concat_map. f_equal. now rewrite !map_map.
  - apply R2. apply Forall_forall. intros s Hs. apply in_map_iff in Hs as (i & <- & _). apply Forall_forall. intros b Hin.
    apply in_map_iff in Hin as (x & <- & _). cbn [filter]. destruct (P x); cbn [length]; lia.
Qed.

Lemma run_sizes d ls : 0 < d_batch d -> Forall (fun b => (1 <= length b <= Z.to_nat (d_batch d))%nat) (run_of d ls).
Proof.
  intros Hb. assert (E : list_sum (repeat 1%nat (Z.to_nat (d_batch d))) = Z.to_nat (d_batch d)).
  { clear. induction (Z.to_nat (d_batch d)); cbn; auto. }
  rewrite <- E. unfold run_of, streams_of. apply rounds_sizes. rewrite map_map. unfold positions. rewrite map_map.
  clear. generalize (Z.to_nat (d_batch d)) as n. assert (G : forall n s, Forall2 (fun m r => Forall (fun b => (1 <= length b <= m)%nat) r) (repeat 1%nat n)
    (map (fun x : nat => map (fun a : X * option string => [a]) (map (item d) (concat (picks ls (d_batch d) (Z.of_nat x))))) (seq s n))); [|intros n; apply G].
  induction n as [|n IH]; intros s; cbn [repeat seq map]; constructor; auto.
  apply Forall_forall. intros b Hin. apply in_map_iff in Hin as (x & <- & _). cbn. lia.
Qed.

Lemma run_perm d ls : 0 < d_batch d -> Permutation (concat (run_of d ls)) (map (item d) (concat ls)).
Proof.
  intros Hb. unfold run_of. rewrite rounds_perm. unfold streams_of. rewrite !map_map.
  rewrite (map_ext _ (fun i => map (item d) (concat (picks ls (d_batch d) i)))) by (intros i; apply concat_singletons).
  rewrite <- (map_map (picks ls (d_batch d)) (fun l => map (item d) (concat l))).
  rewrite <- (map_map (@concat X) (map (item d))), <- concat_map, <- concat_concat. apply Permutation_map.
  assert (G : forall a b : list (list X), Permutation a b -> Permutation (concat a) (concat b)).
  { clear. induction 1 as [|x a b H IH|x y a|a b c H1 IH1 H2 IH2]; cbn [concat]; auto.
    - now apply Permutation_app_head.
    - rewrite !app_assoc. apply Permutation_app_tail, Permutation_app_comm.
    - now transitivity (concat b). }
  apply G, picks_perm, Hb.
Qed.
End Deliver.

(* ---------- the loader ---------- *)

Section Loader.
Context {X : Type}.
Implicit Types (ds : list (dset X)).

Definition order_of (p : dset X * list (list X)) : list (list X) := if d_shuffle (fst p) then snd p else d_list (fst p).
Definition runs_of (ps : list (dset X * list (list X))) : list (list (list (X * option string))) :=
  map (fun p => run_of (fst p) (order_of p)) ps.

Lemma loader_runs ds shuffles : Forall (fun d => 0 < d_batch d /\ d_drop d = false) ds ->
  map (fun p => demo_streams (fst p) (snd p)) (zip ds shuffles) = map gen_of (runs_of (zip ds shuffles)).
Proof.
  intros H. unfold runs_of. rewrite map_map. apply map_ext_in. intros [d sh] Hp. 
  assert (Hd : In d ds). { clear - Hp. revert shuffles Hp. induction ds as [|e ds IH]; intros [|s shs] Hp; try destruct Hp.
    - injection H as -> ->. now left.
    - right. eapply IH; eauto. }
  rewrite Forall_forall in H. destruct (H d Hd) as [H1 H2]. cbn [fst snd]. rewrite demo_streams_closed by exact H1. now rewrite H2.
Qed.

Lemma gmapM_of {A B} (h : A -> res B) (g : A -> B) l : Forall (fun a => h a = Ok (g a)) l -> gmapM h (gen_of l) = gen_of (map g l).
Proof. induction 1 as [|a l Ha Hl IH]; [reflexivity|]. cbn [gen_of gmapM map]. now rewrite Ha, IH. Qed.

Lemma orders_perm ds : forall shuffles, Forall2 (@Permutation (list X)) shuffles (map d_list ds) ->
  Forall2 (fun d p => fst p = d /\ Permutation (order_of p) (d_list d)) ds (zip ds shuffles).
Proof.
  induction ds as [|d ds IH]; intros sh H; inversion H as [|s ? shs ? H1 H2]; subst; cbn [zip]; constructor.
  - split; [reflexivity|]. unfold order_of. cbn [fst snd]. destruct (d_shuffle d); [exact H1|reflexivity].
  - now apply IH.
Qed.

Lemma collated (out : list (list (X * option string))) : Forall (fun b => (1 <= length b)%nat) out ->
  Forall (fun b => demo_collate b = Ok (map fst b, map snd b)) out.
Proof. apply Forall_impl. intros [|a b] H; [cbn in H; lia|reflexivity]. Qed.

Lemma perm_concat {A} (a b : list (list A)) : Permutation a b -> Permutation (concat a) (concat b).
Proof.
  induction 1 as [|x a b H IH|x y a|a b c H1 IH1 H2 IH2]; cbn [concat]; auto.
  - now apply Permutation_app_head.
  - rewrite !app_assoc. apply Permutation_app_tail, Permutation_app_comm.
  - now transitivity (concat b).
Qed.

(** What a label finds in the merged batches. *)
Lemma runs_filter (owner : X -> nat) (k : nat) ds ps :
  Forall (fun d => 0 < d_batch d) ds -> Forall2 (fun d p => fst p = d /\ Permutation (order_of p) (d_list d)) ds ps ->
  ForallOrdPairs (apart (chunks_of owner k)) (concat (map d_list ds)) ->
  ForallOrdPairs (apart (fun s => filter (fun it => Nat.eqb (owner (fst it)) k) (concat s))) (runs_of ps) /\
  Forall2 (fun d r => filter (fun it => Nat.eqb (owner (fst it)) k) (concat r) = map (item d) (concat (map (chunks_of owner k) (d_list d)))) ds (runs_of ps) /\
  Forall (Forall (fun b => (length (filter (fun it => Nat.eqb (owner (fst it)) k) b) <= 1)%nat)) (runs_of ps).
Proof.
  intros Hb H HA. destruct (apart_concat _ _ HA) as [A1 A2].
  assert (F2 : Forall2 (fun d r => filter (fun it => Nat.eqb (owner (fst it)) k) (concat r) = map (item d) (concat (map (chunks_of owner k) (d_list d))) /\
                   Forall (fun b => (length (filter (fun it => Nat.eqb (owner (fst it)) k) b) <= 1)%nat) r) ds (runs_of ps)).
  { clear A1 HA. induction H as [|d p ds ps [E Hp] H IH]; [constructor|]. inversion Hb as [|? ? Hb1 Hb2]; subst. cbn [map] in A2. inversion A2 as [|? ? G1 G2]; subst.
    cbn [runs_of map]. constructor; [|now apply IH].
    destruct (run_filter owner k (fst p) (order_of p) Hb1 (apart_perm _ _ _ (Permutation_sym Hp) G1)) as [R1 R2].
    split; [|exact R2]. rewrite R1. f_equal. symmetry. now apply apart_perm_concat; [apply Permutation_sym|]. }
  split; [|split].
  - clear - A1 F2. revert A1. induction F2 as [|d r ds rs [E _] F2 IH]; cbn [map]; intros A1; [constructor|]. inversion A1 as [|? ? G1 G2]; subst.
    constructor; [|now apply IH]. clear - E G1 F2. apply Forall_forall. intros s Hs.
    assert (Q : exists e, In e ds /\ filter (fun it => Nat.eqb (owner (fst it)) k) (concat s) = map (item e) (concat (map (chunks_of owner k) (d_list e)))).
    { clear - F2 Hs. induction F2 as [|e r ds rs [E _] F2 IH]; [destruct Hs|]. destruct Hs as [<-|Hs]; [exists e; split; [now left|auto]|].
      destruct (IH Hs) as (g & Hg & Eg). exists g. split; [now right|auto]. }
    destruct Q as (e & He & Ee). unfold apart. rewrite E, Ee. rewrite Forall_forall in G1. destruct (G1 (d_list e) (in_map _ _ _ He)) as [G|G]; rewrite G; auto.
  - clear - F2. induction F2 as [|d r ds rs [E _] F2 IH]; constructor; auto.
  - clear - F2. induction F2 as [|d r ds rs [_ E] F2 IH]; constructor; auto.
Qed.

Lemma labelled_apart (owner : X -> nat) ks examples : labelled owner ks examples ->
  forall k, ForallOrdPairs (apart (chunks_of owner k)) examples.
Proof.
  intros [N H] k. revert N. induction H as [|j l ks ls Hl H IH]; intros N; [constructor|]. inversion N as [|? ? N1 N2]; subst.
  constructor; [|now apply IH]. apply Forall_forall. intros m Hm. destruct (Nat.eq_dec j k) as [->|NE].
  - right. clear - H Hm N1. induction H as [|j l ks ls Hl H IH]; [destruct Hm|]. destruct Hm as [<-|Hm].
    + apply filter_none. intros x Hx. rewrite Forall_forall in Hl. specialize (Hl x Hx). destruct (Nat.eqb_spec (owner x) k); [|reflexivity].
      exfalso. apply N1. left. congruence.
    + apply IH; auto. intros G. apply N1. now right.
  - left. apply filter_none. intros x Hx. rewrite Forall_forall in Hl. specialize (Hl x Hx). destruct (Nat.eqb_spec (owner x) k); [congruence|reflexivity].
Qed.

Lemma labelled_find (owner : X -> nat) ks examples : labelled owner ks examples ->
  forall i k l, nth_error ks i = Some k -> nth_error examples i = Some l -> concat (map (chunks_of owner k) examples) = l.
Proof.
  intros HL i k l Ek El.
  assert (E : chunks_of owner k l = l).
  { destruct HL as [_ H]. assert (G : Forall (fun x => owner x = k) l).
    { revert i Ek El. induction H as [|j m ks ls Hl H IH]; intros [|i] Ek El; try discriminate; cbn in Ek, El; [injection Ek as ->; injection El as ->; exact Hl|]. eapply IH; eauto. }
    unfold chunks_of. clear - G. induction G as [|x l Hx G IH]; [reflexivity|]. cbn [filter]. rewrite Hx, Nat.eqb_refl. now rewrite IH. }
  destruct l as [|x l].
  - apply none_concat. destruct HL as [N H]. apply Forall_forall. intros m Hm. apply In_nth_error in Hm as (j & Hj).
    destruct (Nat.eq_dec i j) as [->|NE]; [rewrite Hj in El; injection El as ->; reflexivity|].
    assert (Q : exists k', nth_error ks j = Some k' /\ Forall (fun x => owner x = k') m).
    { clear - H Hj. revert j Hj. induction H as [|a b ks ls Hb H IH]; intros [|j] Hj; try discriminate; cbn in Hj; [injection Hj as ->; exists a; auto|]. now apply IH. }
    destruct Q as (k' & Ek' & Hm). apply filter_none. intros x Hx. rewrite Forall_forall in Hm. specialize (Hm x Hx).
    destruct (Nat.eqb_spec (owner x) k) as [G|G]; [|reflexivity]. exfalso. apply NE.
    apply (proj1 (NoDup_nth_error ks) N); [apply nth_error_Some; congruence|]. congruence.
  - etransitivity; [|exact E]. apply apart_one; [now apply (labelled_apart owner ks)|eapply nth_error_In; eauto|rewrite E; discriminate].
Qed.

Theorem loader_delivers ds shuffles : Forall (fun d => 0 < d_batch d /\ d_drop d = false) ds ->
  Forall2 (@Permutation (list X)) shuffles (map d_list ds) ->
  exists out, demo_loader ds false demo_collate shuffles = gen_of (map (fun b => (map fst b, map snd b)) out) /\
    Forall (fun b => (1 <= length b <= list_sum (map (fun d => Z.to_nat (d_batch d)) ds))%nat) out /\
    Permutation (concat out) (concat (map (fun d => map (fun x => (x, d_name d)) (concat (d_list d))) ds)) /\
    forall owner ks, labelled owner ks (concat (map d_list ds)) ->
      (forall i k l, nth_error ks i = Some k -> nth_error (concat (map d_list ds)) i = Some l -> chunks_of owner k (map fst (concat out)) = l) /\
      (forall k, Forall (fun b => (length (chunks_of owner k (map fst b)) <= 1)%nat) out).
Proof.
  intros Hd Hs. exists (rounds (runs_of (zip ds shuffles))).
  assert (Hb : Forall (fun d => 0 < d_batch d) ds) by (eapply Forall_impl; [|exact Hd]; cbn beta; intros; tauto).
  pose proof (orders_perm ds shuffles Hs) as HO.
  assert (SZ : Forall (fun b => (1 <= length b <= list_sum (map (fun d => Z.to_nat (d_batch d)) ds))%nat) (rounds (runs_of (zip ds shuffles)))).
  { apply rounds_sizes. clear - HO Hb. induction HO as [|d p ds ps [E Hp] H IH]; [constructor|]. inversion Hb; subst. cbn [map runs_of]. constructor; [now apply run_sizes|now apply IH]. }
  split; [|split; [exact SZ|split]].
  - unfold demo_loader. rewrite loader_runs by exact Hd. rewrite zip_longest_rounds. apply gmapM_of. apply collated.
    eapply Forall_impl; [|exact SZ]. cbn beta. intros; lia.
  - rewrite rounds_perm. clear - HO Hb. induction HO as [|d p ds ps [E Hp] H IH]; [reflexivity|]. inversion Hb; subst. cbn [map runs_of concat].
    apply Permutation_app; [|now apply IH]. rewrite run_perm by assumption. apply Permutation_map, perm_concat, Hp.
  - intros owner ks HL.
    assert (M : forall k (l : list (X * option string)), chunks_of owner k (map fst l) = map fst (filter (fun it => Nat.eqb (owner (fst it)) k) l)).
    { intros k l. unfold chunks_of. now rewrite filter_map. }
    split.
    + intros i k l Ek El. rewrite M. destruct (runs_filter owner k ds _ Hb HO (labelled_apart owner ks _ HL k)) as (R1 & R2 & R3).
      destruct (rounds_filter (fun it => Nat.eqb (owner (fst it)) k) _ R1) as [Q1 _]. rewrite Q1.
      transitivity (concat (map (chunks_of owner k) (concat (map d_list ds)))); [|eapply labelled_find; eauto].
      clear - R2. induction R2 as [|d r ds rs E R2 IH]; [reflexivity|]. cbn [map concat]. rewrite map_app, IH, E, map_map, map_app, concat_app. f_equal.
      unfold item. cbn [fst]. apply map_id.
    + intros k. destruct (runs_filter owner k ds _ Hb HO (labelled_apart owner ks _ HL k)) as (R1 & R2 & R3).
      destruct (rounds_filter (fun it => Nat.eqb (owner (fst it)) k) _ R1) as [_ Q2]. specialize (Q2 R3).
      eapply Forall_impl; [|exact Q2]. cbn beta. intros b Hbl. rewrite M, map_length. exact Hbl.
Qed.
End Loader.

(* ---------- drop_last ---------- *)

Lemma apart_nth {A B} (f : A -> list B) l : ForallOrdPairs (apart f) l ->
  forall i j x y, nth_error l i = Some x -> nth_error l j = Some y -> i <> j -> apart f x y.
Proof.
  induction 1 as [|a l Ha Hl IH]; intros [|i] [|j] x y Hx Hy N; cbn in Hx, Hy; try discriminate; try lia.
  - injection Hx as ->. rewrite Forall_forall in Ha. apply Ha. eapply nth_error_In; eauto.
  - injection Hy as ->. rewrite Forall_forall in Ha. destruct (Ha x (nth_error_In _ _ Hx)); [now right|now left].
  - eapply IH; eauto.
Qed.

Lemma filter_nil_in {A} (P : A -> bool) l x : filter P l = [] -> In x l -> P x = false.
Proof. intros E Hx. destruct (P x) eqn:F; [|reflexivity]. assert (G : In x (filter P l)) by (apply filter_In; auto). rewrite E in G. destruct G. Qed.

Lemma zips_batches {A} (P : A -> bool) (runs : list (list (list A))) j r : nth_error runs j = Some r ->
  (forall i t, nth_error runs i = Some t -> i <> j -> filter P (concat t) = []) ->
  forall k, (k <= length (zips runs))%nat ->
  filter P (concat (map (@concat A) (firstn k (zips runs)))) = filter P (concat (firstn k r)).
Proof.
  intros Hj Hother. induction k as [|k IH]; intros Hk; [reflexivity|].
  destruct (nth_error (zips runs) k) as [b|] eqn:Eb; [|apply nth_error_None in Eb; lia].
  pose proof (zips_nth runs k b Eb) as Hf.
  assert (Hx : exists x, nth_error r k = Some x /\ filter P (concat b) = filter P x).
  { clear IH Eb Hk. revert j Hj Hother. induction Hf as [|t x runs b Ht Hf IH]; intros j Hj Hother; [destruct j; discriminate|].
    cbn [concat]. rewrite filter_app. destruct j as [|j]; cbn [nth_error] in Hj.
    - injection Hj as ->. exists x. split; [auto|].
      assert (E : filter P (concat b) = []); [|now rewrite E, app_nil_r].
      apply filter_none. intros y Hy. apply in_concat in Hy as (c & Hc & Hy). apply In_nth_error in Hc as (i & Hi).
      assert (G : exists t0, nth_error runs i = Some t0 /\ nth_error t0 k = Some c).
      { clear -Hf Hi. revert i Hi. induction Hf as [|? ? ? ? Hxx ? IHf]; intros [|i] Hi; cbn in *; try discriminate; [injection Hi as <-; eauto|eauto]. }
      destruct G as (t0 & G1 & G2). apply (filter_nil_in P (concat t0)); [apply (Hother (S i) t0 G1); lia|]. apply in_concat. exists c. split; [eapply nth_error_In; eauto|auto].
    - destruct (IH j Hj) as (x0 & E1 & E2). { intros i t0 Hi Hne. apply (Hother (S i) t0); auto. }
      exists x0. split; [auto|]. rewrite E2.
      assert (E : filter P x = []); [|now rewrite E].
      apply filter_none. intros y Hy. apply (filter_nil_in P (concat t)); [apply (Hother 0%nat t); auto|]. apply in_concat. exists x. split; [eapply nth_error_In; eauto|auto]. }
  destruct Hx as (x & Hx & E). rewrite (firstn_S_nth k _ b Eb), (firstn_S_nth k r x Hx), map_app, !concat_app, !filter_app, IH by lia.
  cbn [map concat]. rewrite !app_nil_r. now rewrite E.
Qed.

Lemma filter_prefix {A} (P : A -> bool) (r : list (list A)) k : exists n, filter P (concat (firstn k r)) = firstn n (filter P (concat r)).
Proof.
  exists (length (filter P (concat (firstn k r)))). rewrite <- (firstn_skipn k r) at 3. rewrite concat_app, filter_app, firstn_app, firstn_all, Nat.sub_diag.
  cbn [firstn]. now rewrite app_nil_r.
Qed.

Section LoaderDrop.
Context {X : Type}.
Implicit Types (ds : list (dset X)).

Theorem loader_drops ds shuffles : ds <> [] -> Forall (fun d => 0 < d_batch d /\ d_drop d = false) ds ->
  Forall2 (@Permutation (list X)) shuffles (map d_list ds) ->
  exists out, demo_loader ds true demo_collate shuffles = gen_of (map (fun b => (map fst b, map snd b)) out) /\
    Forall (fun b => (length ds <= length b <= list_sum (map (fun d => Z.to_nat (d_batch d)) ds))%nat) out /\
    exists d0, In d0 ds /\
    forall owner ks, labelled owner ks (concat (map d_list ds)) ->
    forall i k l, nth_error ks i = Some k -> nth_error (concat (map d_list ds)) i = Some l ->
      (exists n, chunks_of owner k (map fst (concat out)) = firstn n l) /\
      (In l (d_list d0) -> chunks_of owner k (map fst (concat out)) = l).
Proof.
  intros Hne Hd Hs. pose proof (orders_perm ds shuffles Hs) as HO.
  assert (Hb : Forall (fun d => 0 < d_batch d) ds) by (eapply Forall_impl; [|exact Hd]; cbn beta; intros; tauto).
  set (runs := runs_of (zip ds shuffles)). set (z := zips runs). exists (map (@concat _) z).
  assert (LR : length runs = length ds).
  { unfold runs, runs_of. rewrite map_length. clear - HO. induction HO; cbn; auto. }
  assert (SZ : Forall (fun b => (length ds <= length b <= list_sum (map (fun d => Z.to_nat (d_batch d)) ds))%nat) (map (@concat _) z)).
  { apply Forall_forall. intros b Hb0. apply in_map_iff in Hb0 as (parts & <- & Hp). apply In_nth_error in Hp as (k & Hk).
    pose proof (zips_nth runs k parts Hk) as Hf. clear Hk z. subst runs. clear - Hf HO Hb.
    revert parts Hf. induction HO as [|d p ds ps [E Hp] HO IH]; cbn [runs_of map]; intros parts Hf; inversion Hf as [|? x ? ps' Hx Hf']; subst; [cbn; lia|].
    inversion Hb as [|? ? Hb1 Hb2]; subst. specialize (IH Hb2 _ Hf'). cbn [concat length map]. rewrite app_length.
    change (list_sum (?a :: ?l)) with (a + list_sum l)%nat.
    pose proof (run_sizes (fst p) (order_of p) Hb1) as RS. rewrite Forall_forall in RS. specialize (RS x (nth_error_In _ _ Hx)). lia. }
  split; [|split; [exact SZ|]].
  - unfold demo_loader. rewrite loader_runs by exact Hd. rewrite zip_gens_of, gmap_of. apply gmapM_of. apply collated.
    eapply Forall_impl; [|exact SZ]. cbn beta. intros b Hbl. destruct ds; [congruence|]. cbn [length] in Hbl. lia.
  - assert (Hnr : runs <> []) by (intros E; rewrite E in LR; destruct ds; [congruence|discriminate]).
    destruct (zips_shortest runs Hnr) as (r0 & Hr0 & Lr0). apply In_nth_error in Hr0 as (j0 & Hj0).
    destruct (nth_error ds j0) as [d0|] eqn:E0; [|apply nth_error_None in E0; assert (j0 < length runs)%nat by (apply nth_error_Some; congruence); lia].
    exists d0. split; [eapply nth_error_In; eauto|].
    intros owner ks HL i k l Ek El.
    assert (M : forall (l : list (X * option string)), chunks_of owner k (map fst l) = map fst (filter (fun it => Nat.eqb (owner (fst it)) k) l)).
    { intros m. unfold chunks_of. now rewrite filter_map. }
    set (P := fun it : X * option string => Nat.eqb (owner (fst it)) k) in *.
    destruct (runs_filter owner k ds _ Hb HO (labelled_apart owner ks _ HL k)) as (R1 & R2 & _). fold runs in R1, R2. fold P in R1, R2.
    assert (R2n : forall j d r, nth_error ds j = Some d -> nth_error runs j = Some r -> filter P (concat r) = map (item d) (concat (map (chunks_of owner k) (d_list d)))).
    { clear - R2. induction R2 as [|d r ds rs E R2 IH]; intros [|j] d' r' Hd Hr; try discriminate; cbn in Hd, Hr; [injection Hd as <-; injection Hr as <-; exact E|]. eapply IH; eauto. }
    pose proof (labelled_find owner ks _ HL i k l Ek El) as FL.
    assert (J : exists j d r, nth_error ds j = Some d /\ nth_error runs j = Some r /\
              (forall i' t, nth_error runs i' = Some t -> i' <> j -> filter P (concat t) = []) /\
              concat (map (chunks_of owner k) (d_list d)) = l /\ (In l (d_list d0) -> j = j0 \/ l = [])).
    { destruct l as [|x l].
      - exists j0, d0, r0. split; [exact E0|]. split; [exact Hj0|]. apply none_concat in FL.
        assert (NN : forall d, In d ds -> concat (map (chunks_of owner k) (d_list d)) = []).
        { intros d Hin. apply none_concat. rewrite Forall_forall in *. intros m Hm. apply FL. apply in_concat. exists (d_list d). split; [now apply in_map|auto]. }
        split; [|split; [apply NN; eapply nth_error_In; eauto|auto]].
        intros i' t Ht _. destruct (nth_error ds i') as [d|] eqn:Ed; [|apply nth_error_None in Ed; assert (i' < length runs)%nat by (apply nth_error_Some; congruence); lia].
        rewrite (R2n i' d t Ed Ht), NN; [reflexivity|eapply nth_error_In; eauto].
      - assert (Hx : forall d, In (x :: l) (d_list d) -> In d ds -> concat (map (chunks_of owner k) (d_list d)) = x :: l).
        { intros d Hin Hd'. pose proof (labelled_apart owner ks _ HL k) as HA. destruct (apart_concat _ _ HA) as [_ A2]. rewrite Forall_forall in A2.
          assert (EC : chunks_of owner k (x :: l) = x :: l).
          { destruct HL as [_ HF]. assert (G : Forall (fun y => owner y = k) (x :: l)).
            { clear - HF Ek El. revert i Ek El. induction HF as [|j m ks ls Hl H IH]; intros [|i] Ek El; try discriminate; cbn in Ek, El; [injection Ek as ->; injection El as ->; exact Hl|]. eapply IH; eauto. }
            unfold chunks_of. clear - G. induction G as [|y m Hy G IH]; [reflexivity|]. cbn [filter]. rewrite Hy, Nat.eqb_refl. now rewrite IH. }
          etransitivity; [|exact EC]. apply apart_one; [apply A2; now apply in_map|exact Hin|rewrite EC; discriminate]. }
        assert (Q : exists d, In d ds /\ In (x :: l) (d_list d)).
        { apply nth_error_In in El. apply in_concat in El as (m & Hm & Hin). apply in_map_iff in Hm as (d & <- & Hd'). eauto. }
        destruct Q as (d & Hd' & Hin). pose proof (Hx d Hin Hd') as Ex. apply In_nth_error in Hd' as (j & Ej).
        destruct (nth_error runs j) as [r|] eqn:Er; [|apply nth_error_None in Er; assert (j < length ds)%nat by (apply nth_error_Some; congruence); lia].
        exists j, d, r. split; [exact Ej|]. split; [exact Er|]. 
        assert (NO : forall i' t, nth_error runs i' = Some t -> i' <> j -> filter P (concat t) = []).
        { intros i' t Ht N. destruct (apart_nth _ _ R1 i' j t r Ht Er N) as [G|G]; [exact G|]. rewrite (R2n j d r Ej Er), Ex in G. discriminate. }
        split; [exact NO|]. split; [exact Ex|]. intros Hin0. left. destruct (Nat.eq_dec j j0) as [|N]; [auto|]. exfalso.
        pose proof (NO j0 r0 Hj0 ltac:(auto)) as G. rewrite (R2n j0 d0 r0 E0 Hj0), (Hx d0 Hin0 (nth_error_In _ _ E0)) in G. discriminate. }
    destruct J as (j & d & r & Ej & Er & NO & EL & Hfull).
    assert (EZ : chunks_of owner k (map fst (concat (map (@concat _) z))) = map fst (filter P (concat (firstn (length z) r)))).
    { rewrite M. f_equal. rewrite <- (zips_batches P runs j r Er NO (length z) (le_n _)). fold z. now rewrite firstn_all. }
    assert (EF : map fst (filter P (concat r)) = l).
    { rewrite (R2n j d r Ej Er), map_map, EL. unfold item. cbn [fst]. apply map_id. }
    rewrite EZ. split.
    + destruct (filter_prefix P r (length z)) as (n & En). exists n. rewrite En, <- firstn_map, EF. reflexivity.
    + intros Hin0. destruct (Hfull Hin0) as [->| ->].
      * rewrite Hj0 in Er. injection Er as <-. unfold z. rewrite <- Lr0, firstn_all. exact EF.
      * destruct (filter_prefix P r (length z)) as (n & En). rewrite En, <- firstn_map, EF. apply firstn_nil.
Qed.
End LoaderDrop.

(* ---------- split_datasets, then the loader ---------- *)

Lemma labelled_perm {X} (owner : X -> nat) ks a b : Permutation a b -> labelled owner ks a ->
  exists ks', labelled owner ks' b /\
    forall i k l, nth_error ks i = Some k -> nth_error a i = Some l -> exists j, nth_error ks' j = Some k /\ nth_error b j = Some l.
Proof.
  intros HP [ND HF].
  assert (L : length ks = length a) by (clear - HF; induction HF; cbn; auto).
  assert (Ea : map snd (combine ks a) = a /\ map fst (combine ks a) = ks).
  { clear - L. revert a L. induction ks as [|k ks IH]; intros [|x a] L; try discriminate; [auto|]. cbn in *. destruct (IH a ltac:(lia)) as [-> ->]. auto. }
  destruct Ea as [Ea Ek]. rewrite <- Ea in HP.
  apply Permutation_sym in HP. destruct (Permutation_map_inv _ _ HP) as (ps & -> & Hps).
  exists (map fst ps). split.
  - split.
    + apply (Permutation_NoDup (l := ks)); [|exact ND]. rewrite <- Ek. now apply Permutation_map.
    + assert (G : Forall (fun p => Forall (fun x => owner x = fst p) (snd p)) ps).
      { apply Forall_forall. intros p Hp. apply (Permutation_in _ (Permutation_sym Hps)) in Hp. clear - HF Hp.
        induction HF as [|k l ks a Hl HF IH]; [destruct Hp|]. cbn in Hp. destruct Hp as [<-|Hp]; [exact Hl|auto]. }
      clear - G. induction G; cbn; constructor; auto.
  - intros i k l Hk Hl. assert (G : In (k, l) (combine ks a)).
    { apply nth_error_In with i. clear - Hk Hl. revert i a Hk Hl. induction ks as [|k' ks IH]; intros [|i] [|x a] Hk Hl; try discriminate; cbn in *; [congruence|auto]. }
    apply (Permutation_in _ Hps) in G. apply In_nth_error in G as (j & Hj). exists j.
    split; erewrite map_nth_error by exact Hj; reflexivity.
Qed.

Lemma sum_const {A} (f : A -> nat) c l : (forall x, In x l -> f x = c) -> list_sum (map f l) = (length l * c)%nat.
Proof. induction l as [|x l IH]; intros H; [reflexivity|]. cbn [map length]. change (list_sum (f x :: map f l)) with (f x + list_sum (map f l))%nat. rewrite (H x) by (cbn; auto). rewrite IH by (intros; apply H; cbn; auto). lia. Qed.

Theorem split_then_load {X} (data : list (list X)) bs mw order n : 1 <= bs -> 1 <= mw ->
  Permutation order (seq 0 (length data)) -> largest_divisor n (Z.min mw bs) bs -> n <= 52 ->
  exists ds, split_datasets data bs mw order = Ok ds /\
  forall shuffles drop, Forall2 (@Permutation (list X)) shuffles (map d_list ds) ->
  exists out, demo_loader ds drop demo_collate shuffles = gen_of (map (fun b => (map fst b, map snd b)) out) /\
    Forall (fun b => 1 <= zlen b <= bs) out /\
    (drop = false -> Permutation (map fst (List.concat out)) (List.concat data)) /\
    forall owner ks, labelled owner ks data -> forall i k l, nth_error ks i = Some k -> nth_error data i = Some l ->
      (exists m, chunks_of owner k (map fst (List.concat out)) = firstn m l) /\
      (drop = false -> chunks_of owner k (map fst (List.concat out)) = l /\
                       Forall (fun b => (length (chunks_of owner k (map fst b)) <= 1)%nat) out).
Proof.
  intros Hb Hm Ho Hn H52.
  destruct (split_datasets_spec data bs mw order 0 Hb Hm Ho) as (n' & Hn' & _ & Hok).
  assert (n' = n) as ->.
  { destruct Hn as (B1 & D1 & M1), Hn' as (B2 & D2 & M2). destruct (Z.lt_trichotomy n n') as [L|[L|L]]; [|lia|].
    - exfalso. apply (M1 n'); [lia|auto].
    - exfalso. apply (M2 n); [lia|auto]. }
  destruct (Hok H52) as (ds & E & Ll & Hp & Emul & Hall & _). exists ds. split; [exact E|].
  intros shuffles drop Hs. destruct Hn as (Bn & _).
  assert (Hpos : 0 < bs / n) by (apply Z.div_str_pos; lia).
  assert (Hin : forall d, In d ds -> d_batch d = bs / n /\ d_drop d = false).
  { intros d Hd. apply In_nth_error in Hd as (i & Hi). destruct (Hall i d Hi) as (? & _ & ? & _). auto. }
  assert (Hd : Forall (fun d => 0 < d_batch d /\ d_drop d = false) ds).
  { apply Forall_forall. intros d Hd. destruct (Hin d Hd) as [-> ->]. auto. }
  assert (Hsum : Z.of_nat (list_sum (map (fun d => Z.to_nat (d_batch d)) ds)) = bs).
  { rewrite (sum_const _ (Z.to_nat (bs / n))). { rewrite Ll, Nat2Z.inj_mul, !Z2Nat.id by lia. lia. } intros d Hd'. destruct (Hin d Hd') as [-> _]. reflexivity. }
  destruct drop.
  - destruct (loader_drops ds shuffles) as (out & Eo & Sz & d0 & _ & HL); auto. { intros ->. cbn in Ll. lia. }
    exists out. split; [exact Eo|]. split.
    { eapply Forall_impl; [|exact Sz]. cbn beta. intros b Hbl. unfold zlen. lia. }
    split; [discriminate|]. intros owner ks Hlab i k l Hk Hl.
    destruct (labelled_perm owner ks _ _ (Permutation_sym Hp) Hlab) as (ks' & Hlab' & Hj). destruct (Hj i k l Hk Hl) as (j & Hjk & Hjl).
    split; [|discriminate]. apply (HL owner ks' Hlab' j k l Hjk Hjl).
  - destruct (loader_delivers ds shuffles) as (out & Eo & Sz & Hperm & HL); auto.
    exists out. split; [exact Eo|]. split.
    { eapply Forall_impl; [|exact Sz]. cbn beta. intros b Hbl. unfold zlen. lia. }
    split.
    { intros _. rewrite (Permutation_map fst Hperm). rewrite concat_map, map_map.
      rewrite (map_ext _ (fun d : dset X => List.concat (d_list d))) by (intros d; rewrite map_map; apply map_id).
      rewrite <- (perm_concat _ _ Hp). rewrite concat_concat, map_map. reflexivity. }
    intros owner ks Hlab i k l Hk Hl.
    destruct (labelled_perm owner ks _ _ (Permutation_sym Hp) Hlab) as (ks' & Hlab' & Hj). destruct (Hj i k l Hk Hl) as (j & Hjk & Hjl).
    destruct (HL owner ks' Hlab') as [H1 H2]. pose proof (H1 j k l Hjk Hjl) as HH.
    split; [exists (length l); now rewrite firstn_all|]. intros _. split; [exact HH|apply H2].
Qed.

(* ---------- too few workers ---------- *)

Theorem split_no_workers {X} (data : list (list X)) bs mw order : Z.min mw bs <= 0 -> order <> [] ->
  split_datasets data bs mw order = Err ValueError.
Proof.
  intros Hm Ho. unfold split_datasets.
  replace (if bs <? mw then bs else mw) with (Z.min mw bs) by (destruct (Z.ltb_spec bs mw); lia).
  replace (Z.to_nat (Z.min mw bs)) with 0%nat by lia. cbn [first_divisor]. unfold demo_partition. cbn [andb].
  replace (Z.to_nat (Z.min mw bs)) with 0%nat by lia. cbn [repeat]. destruct order as [|i order]; [congruence|]. reflexivity.
Qed.

(** A dataset with batch size 0 (or less) has no stream. *)
Theorem no_streams {X} (d : dset X) shuffled : d_batch d <= 0 -> demo_streams d shuffled = gen_of [].
Proof.
  intros H. unfold demo_streams. replace (py_range 0 (d_batch d) 1) with (@nil Z). 2:{ unfold py_range, range_len. replace (0 <? 1) with true by reflexivity. rewrite Z.div_1_r. replace (Z.to_nat (d_batch d - 0 + 1 - 1)) with 0%nat by lia. reflexivity. }
  cbn [mapM map seqM bind]. destruct (d_drop d); reflexivity.
Qed.

Lemma letter_inj i j : (i < 26)%nat -> (j < 26)%nat -> letter i = letter j -> i = j.
Proof.
  intros Hi Hj E. assert (E' : Ascii.ascii_of_nat (65 + i mod 26) = Ascii.ascii_of_nat (65 + j mod 26)) by (unfold letter in E; congruence).
  apply (f_equal Ascii.nat_of_ascii) in E'. rewrite !Nat.mod_small in E' by assumption. rewrite !Ascii.nat_ascii_embedding in E' by lia. lia.
Qed.

Theorem names_repeat {X} (data : list (list X)) bs mw order n : 1 <= bs -> 1 <= mw ->
  Permutation order (seq 0 (length data)) -> largest_divisor n (Z.min mw bs) bs -> 27 <= n <= 52 ->
  exists ds d d', split_datasets data bs mw order = Ok ds /\ nth_error ds 0 = Some d /\ nth_error ds 26 = Some d' /\ d_name d = d_name d'.
Proof.
  intros Hb Hm Ho Hn H52.
  destruct (split_datasets_spec data bs mw order 0 Hb Hm Ho) as (n' & Hn' & _ & Hok).
  assert (n' = n) as ->.
  { destruct Hn as (B1 & D1 & M1), Hn' as (B2 & D2 & M2). destruct (Z.lt_trichotomy n n') as [L|[L|L]]; [|lia|].
    - exfalso. apply (M1 n'); [lia|auto].
    - exfalso. apply (M2 n); [lia|auto]. }
  destruct (Hok ltac:(lia)) as (ds & E & Ll & _ & _ & Hall & _).
  destruct (nth_error ds 0) as [d|] eqn:E0; [|apply nth_error_None in E0; lia].
  destruct (nth_error ds 26) as [d'|] eqn:E1; [|apply nth_error_None in E1; lia].
  exists ds, d, d'. split; [exact E|]. split; [exact E0|]. split; [exact E1|].
  destruct (Hall _ _ E0) as (_ & _ & _ & ->), (Hall _ _ E1) as (_ & _ & _ & ->). reflexivity.
Qed.

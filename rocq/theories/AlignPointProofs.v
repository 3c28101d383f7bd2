(** Element-wise functions keep data and metadata in agreement; so does every computation. *)

From Coq Require Import String List ZArith Bool Lia Permutation.
From Coq Require Import ZifyBool.
From Verif Require Import Py Meta MetaSpec MetaProofs MetaLenProofs Named NamedSpec NamedProofs NamedOpsProofs Dispatch DispatchProofs
  AlignSpec AlignProofs AlignOpProofs AlignGatherProofs AlignCatProofs AlignBlockProofs.
Import ListNotations.
Open Scope Z_scope.

Lemma pulled_length s ix : length ix = length s -> length (pulled s ix) = length s.
Proof. intros E. unfold pulled. rewrite map_length, combine_length. lia. Qed.

Lemma pulled_at s : forall ix d n, nth_error s d = Some n -> length ix = length s -> nth d (pulled s ix) 0 = if n =? 1 then 0 else nth d ix 0.
Proof.
  unfold pulled. induction s as [|m s IH]; intros [|i ix] [|d] n Hn L; try discriminate; cbn in Hn, L |- *; [injection Hn as ->; reflexivity|].
  apply IH; [auto|lia].
Qed.

Lemma pulled_range s : forall st ix, length st = length s ->
  (forall k n, nth_error st k = Some n -> nth_error s k = Some n \/ nth_error s k = Some 1) -> in_range st ix -> in_range s (pulled s ix).
Proof.
  unfold pulled. induction s as [|m s IH]; intros [|n st] ix L H R; try discriminate; [inversion R; subst; constructor|].
  inversion R as [|? i ? ix' Hi R']; subst. cbn [combine map fst snd]. constructor.
  - destruct (H 0%nat n eq_refl) as [E|E]; cbn in E; injection E as ->; [destruct (Z.eqb_spec n 1); lia|reflexivity || (cbn; lia)].
  - apply (IH st); [cbn in L; lia| |exact R']. intros k q Hk. exact (H (S k) q Hk).
Qed.

Section AlignPoint.
Context {V : Type}.
Context (real : V -> bool) (owner : V -> string) (time : V -> Z).
Notation aligned_at := (aligned_at real owner time).
Notation aligned := (aligned real owner time).
Implicit Types x y : @stensor V.

Lemma pointwise_aligned g ss y : elementwise g ss (tn y) -> lawful real owner time g -> (forall x, In x ss -> aligned x) ->
  same_streams ss -> unified ss (names y) -> (exists x0, In x0 ss /\ smeta y = smeta x0) -> aligned y.
Proof.
  intros [Hne ER ES EA] [LR LO LT] HA HS [ND HN] (x0 & H0 & EM).
  destruct (HA x0 H0) as (bd & ld & c & rs & T0 & A0). pose proof (al_ok _ _ _ _ _ _ _ _ _ A0) as S0.
  assert (XS : forall x, In x ss -> exists cx rx Tx, aligned_at x bd ld cx rx Tx /\ map rid rx = map rid rs /\ map rlen rx = map rlen rs).
  { intros x Hx. destruct (HA x Hx) as (bx & lx & cx & rx & Tx & Ax). pose proof (al_ok _ _ _ _ _ _ _ _ _ Ax) as Sx.
    destruct (HN x Hx) as [_ Nx], (HN x0 H0) as [_ N0].
    assert (bx = bd) as -> by (apply (ND _ _ "B"%string); [apply Nx, (so_bname _ _ _ _ _ _ Sx)|apply N0, (so_bname _ _ _ _ _ _ S0)]).
    assert (lx = ld) as -> by (apply (ND _ _ "L"%string); [apply Nx, (so_lname _ _ _ _ _ _ Sx)|apply N0, (so_lname _ _ _ _ _ _ S0)]).
    exists cx, rx, Tx. split; [exact Ax|]. destruct (HS x x0 Hx H0) as [E1 E2].
    rewrite (so_meta _ _ _ _ _ _ Sx), (so_meta _ _ _ _ _ _ S0) in E1, E2. auto. }
  assert (RX : forall rx i r, map rid rx = map rid rs -> map rlen rx = map rlen rs -> nth_error rs i = Some r ->
             exists r', nth_error rx i = Some r' /\ rid r' = rid r /\ rlen r' = rlen r).
  { intros rx i r E1 E2 Hr. apply (f_equal (fun l => nth_error l i)) in E1, E2. rewrite !nth_error_map, Hr in E1, E2. cbn in E1, E2.
    destruct (nth_error rx i) as [r'|]; [|discriminate]. exists r'. cbn in *. split; [auto|split; congruence]. }
  assert (LX : forall rx, map rid rx = map rid rs -> zlen rx = zlen rs).
  { intros rx E. apply (f_equal (@length _)) in E. rewrite !map_length in E. unfold zlen. lia. }
  (* sizes of the result *)
  assert (NB : nth_error (shp (tn y)) bd = Some (zlen rs)).
  { destruct (nth_error (shp (tn y)) bd) as [n|] eqn:En.
    - destruct (ES bd n En) as [_ (x & Hx & Ex)]. destruct (XS x Hx) as (cx & rx & Tx & [Sx _ _ _] & E1 & _).
      rewrite (so_bsize _ _ _ _ _ _ Sx) in Ex. rewrite <- Ex. f_equal. now apply LX.
    - apply nth_error_None in En. rewrite <- (ER x0 H0) in En. apply nth_error_None in En. rewrite (so_bsize _ _ _ _ _ _ S0) in En. discriminate. }
  destruct (nth_error (shp (tn y)) ld) as [T|] eqn:EL.
  2:{ apply nth_error_None in EL. rewrite <- (ER x0 H0) in EL. apply nth_error_None in EL. rewrite (so_lsize _ _ _ _ _ _ S0) in EL. discriminate. }
  assert (NL : forall x, In x ss -> exists Tx, nth_error (shp (tn x)) ld = Some Tx /\ (Tx = T \/ Tx = 1)).
  { intros x Hx. destruct (ES ld T EL) as [G _]. destruct (G x Hx); eauto. }
  destruct (ES ld T EL) as [_ (x1 & H1 & E1)]. destruct (XS x1 H1) as (c1 & r1 & T1 & A1 & I1 & L1).
  pose proof (al_ok _ _ _ _ _ _ _ _ _ A1) as S1. assert (T1 = T) as -> by (rewrite (so_lsize _ _ _ _ _ _ S1) in E1; congruence).
  assert (FIT : Forall (fun r => rlen r <= T) rs).
  { apply Forall_forall. intros r Hr. apply In_nth_error in Hr as (i & Hi). destruct (RX r1 i r I1 L1 Hi) as (r' & Hr' & _ & <-).
    pose proof (so_fit _ _ _ _ _ _ S1) as F. rewrite Forall_forall in F. apply F. eapply nth_error_In; eauto. }
  assert (SY : stream_ok y bd ld c rs T).
  { destruct (HN x0 H0) as [N1 N2]. constructor.
    - rewrite <- N1. rewrite (so_rank _ _ _ _ _ _ S0). now apply ER.
    - exact ND.
    - apply Forall_forall. intros n Hn. apply In_nth_error in Hn as (k & Hk). destruct (ES k n Hk) as [_ (x & Hx & Ex)].
      destruct (XS x Hx) as (cx & rx & Tx & [Sx _ _ _] & _). pose proof (so_sizes _ _ _ _ _ _ Sx) as F. rewrite Forall_forall in F. apply F. eapply nth_error_In; eauto.
    - apply N2, (so_bname _ _ _ _ _ _ S0).
    - apply N2, (so_lname _ _ _ _ _ _ S0).
    - exact NB.
    - exact EL.
    - rewrite EM. apply (so_meta _ _ _ _ _ _ S0).
    - apply (so_nonneg _ _ _ _ _ _ S0).
    - exact FIT. }
  (* positions *)
  assert (PR : forall x ix, In x ss -> in_range (shp (tn y)) ix -> in_range (shp (tn x)) (pulled (shp (tn x)) ix)).
  { intros x ix Hx R. apply (pulled_range _ (shp (tn y))); [symmetry; now apply ER| |exact R]. intros k n Hk. destruct (ES k n Hk) as [G _]. now apply G. }
  assert (LEN : forall x ix, In x ss -> in_range (shp (tn y)) ix -> length ix = length (shp (tn x))).
  { intros x ix Hx R. rewrite (ER x Hx). now apply in_range_len. }
  assert (PB : forall x ix, In x ss -> in_range (shp (tn y)) ix -> nth bd (pulled (shp (tn x)) ix) 0 = nth bd ix 0).
  { intros x ix Hx R. destruct (XS x Hx) as (cx & rx & Tx & [Sx _ _ _] & I & _).
    pose proof (so_bsize _ _ _ _ _ _ Sx) as E. rewrite (LX rx I) in E. rewrite (pulled_at _ ix bd _ E (LEN x ix Hx R)).
    pose proof (in_range_nth _ _ _ _ R NB) as Hb. destruct (Z.eqb_spec (zlen rs) 1); lia. }
  assert (PL : forall x ix, In x ss -> in_range (shp (tn y)) ix ->
             exists Tx, nth_error (shp (tn x)) ld = Some Tx /\ nth ld (pulled (shp (tn x)) ix) 0 = if Tx =? 1 then 0 else nth ld ix 0).
  { intros x ix Hx R. destruct (NL x Hx) as (Tx & E & _). exists Tx. split; [exact E|]. now rewrite (pulled_at _ ix ld _ E (LEN x ix Hx R)). }
  assert (REAL : forall ix r, in_range (shp (tn y)) ix -> nth_error rs (Z.to_nat (nth bd ix 0)) = Some r -> forall x, In x ss ->
             real (at_ (tn x) (pulled (shp (tn x)) ix)) = (nth ld (pulled (shp (tn x)) ix) 0 <? rlen r) /\
             (real (at_ (tn x) (pulled (shp (tn x)) ix)) = true -> owner (at_ (tn x) (pulled (shp (tn x)) ix)) = rid r)).
  { intros ix r R Er x Hx. destruct (XS x Hx) as (cx & rx & Tx & [Sx AR AO _] & I & L).
    destruct (RX rx _ r I L Er) as (r' & Er' & Ei & Ell). pose proof (PB x ix Hx R) as Eb. split.
    - rewrite (AR _ r' (PR x ix Hx R)); [now rewrite Ell|now rewrite Eb].
    - intros Ht. rewrite (AO _ r' (PR x ix Hx R)); [exact Ei|now rewrite Eb|exact Ht]. }
  assert (ALL : forall ix r, in_range (shp (tn y)) ix -> nth_error rs (Z.to_nat (nth bd ix 0)) = Some r ->
             forallb real (map (fun x => at_ (tn x) (pulled (shp (tn x)) ix)) ss) = (nth ld ix 0 <? rlen r)).
  { intros ix r R Er. apply eq_true_iff_eq. rewrite forallb_forall. split.
    - intros H. specialize (H _ (in_map (fun x => at_ (tn x) (pulled (shp (tn x)) ix)) ss x1 H1)). cbn beta in H. destruct (REAL ix r R Er x1 H1) as [G _]. rewrite G in H.
      destruct (PL x1 ix H1 R) as (Tx & Ex & E). rewrite E1 in Ex. injection Ex as <-. rewrite E in H.
      pose proof (in_range_nth _ _ _ _ R EL) as Ht. destruct (Z.eqb_spec T 1); lia.
    - intros H v Hv. apply in_map_iff in Hv as (x & <- & Hx). destruct (REAL ix r R Er x Hx) as [-> _].
      destruct (PL x ix Hx R) as (Tx & Ex & ->). pose proof (in_range_nth _ _ _ _ R EL) as Ht. destruct (Z.eqb_spec Tx 1); lia. }
  exists bd, ld, c, rs, T. constructor; [exact SY| | |].
  - intros ix r R Er. rewrite (EA ix R), LR. now apply ALL.
  - intros ix r R Er Hr. rewrite (EA ix R), LR in Hr. rewrite (EA ix R).
    destruct ss as [|x ss]; [congruence|]. cbn [map] in *.
    rewrite forallb_forall in Hr.
    assert (OW : forall z, In z (x :: ss) -> owner (at_ (tn z) (pulled (shp (tn z)) ix)) = rid r).
    { intros z Hz. apply (REAL ix r R Er z Hz). apply Hr. apply (in_map (fun x => at_ (tn x) (pulled (shp (tn x)) ix)) (x :: ss) z Hz). }
    rewrite LO; [apply OW; now left| |].
    + apply forallb_forall. exact Hr.
    + apply Forall_forall. intros v Hv. apply in_map_iff in Hv as (z & <- & Hz). rewrite (OW z (or_intror Hz)), (OW x (or_introl eq_refl)). reflexivity.
  - intros ix jx R1 R2 HST HT Hr1 Hr2. rewrite (EA ix R1), LR in Hr1. rewrite (EA jx R2), LR in Hr2. rewrite (EA ix R1), (EA jx R2).
    apply LT; [exact Hr1|exact Hr2|]. rewrite forallb_forall in Hr1, Hr2.
    assert (G : forall x, In x ss -> time (at_ (tn x) (pulled (shp (tn x)) ix)) <= time (at_ (tn x) (pulled (shp (tn x)) jx))).
    { intros x Hx. destruct (XS x Hx) as (cx & rx & Tx & [Sx _ _ AT] & _). apply AT.
      - now apply PR.
      - now apply PR.
      - intros d Hd. destruct (nth_error (shp (tn x)) d) as [n|] eqn:En.
        + rewrite (pulled_at _ ix d n En (LEN x ix Hx R1)), (pulled_at _ jx d n En (LEN x jx Hx R2)). now rewrite (HST d Hd).
        + apply nth_error_None in En. rewrite !nth_overflow; [reflexivity|rewrite pulled_length; [exact En|now apply LEN]|rewrite pulled_length; [exact En|now apply LEN]].
      - destruct (PL x ix Hx R1) as (Ta & Ea1 & ->). destruct (PL x jx Hx R2) as (Tb & Eb1 & ->). rewrite Ea1 in Eb1. injection Eb1 as <-. destruct (Ta =? 1); lia.
      - apply Hr1. apply (in_map (fun x => at_ (tn x) (pulled (shp (tn x)) ix)) ss x Hx).
      - apply Hr2. apply (in_map (fun x => at_ (tn x) (pulled (shp (tn x)) jx)) ss x Hx). }
    clear - G. induction ss as [|x ss IH]; [constructor|]. cbn [map]. constructor; [apply G; now left|apply IH; intros; apply G; now right].
Qed.

Lemma streams_top args kw : streams args kw = top_streams (V := V) args kw.
Proof. reflexivity. Qed.

(** What the rules make of torch's result. *)
Lemma call_result custom f impl args kw self t n y :
  (handler_of f = HDefault \/ handler_of f = HRecouple) /\ (forall x, In x (streams args kw) -> chs (smeta x) = None) \/ same_streams (streams args kw) ->
  torch_returns f impl args kw self t n -> (forall x, In x (streams args kw) -> names x <> []) ->
  (handler_of f = HDefault \/ handler_of f = HValid -> unified (streams args kw) n) ->
  (handler_of f = HInplace -> forall x r, args = AStream x :: r -> unified (streams args kw) (names x)) ->
  (forall x, In x (streams args kw) -> names_distinct (names x)) ->
  torch_function custom f impl args kw = Ok (DStream y) ->
  tn y = t /\ unified (streams args kw) (names y) /\ same_streams (streams args kw) /\ exists x0, In x0 (streams args kw) /\ smeta y = smeta x0.
Proof.
  intros HS HT HNE HU HI HD E.
  assert (SS : (handler_of f = HDefault \/ handler_of f = HRecouple) -> same_streams (streams args kw)).
  { intros HH. destruct HS as [[_ HC]|HS]; [|exact HS].
    assert (HC' : no_chunks args kw) by (intros x Hx; apply HC; apply top_streams_In; exact Hx).
    intros x x' Hx Hx'. assert (G : smeta x = smeta x'); [|now rewrite G].
    rewrite <- (dispatch_result custom f impl args kw y HH HC' E x), <- (dispatch_result custom f impl args kw y HH HC' E x'); auto; now apply top_streams_In. }
  unfold torch_returns in HT. unfold torch_function in E. destruct (handler_of f) eqn:EH; try contradiction.
  - destruct HT as (HT & -> & ->). unfold super_call, on_values in E. cbn [map] in E. rewrite HT in E. cbn [bind convert] in E.
    destruct args as [|[x|? ?|?|?] r]; cbn [hd_error] in E; try discriminate. injection E as <-. cbn [tn names smeta].
    split; [reflexivity|]. split; [apply HU; auto|]. split; [|exists x; split; [now left|reflexivity]].
    destruct HS as [[[H|H] _]|HS]; try discriminate. exact HS.
  - split; [|split; [|split; [apply SS; auto|]]]; unfold recouple in E; (destruct (all_eq _ _) as [b|e]; [|discriminate]); cbn [bind] in E;
      (destruct (b && _) eqn:Eb; [|discriminate]); cbn [negb] in E; apply andb_true_iff in Eb as [_ En];
      unfold decouple_call in E; (destruct (existsb nested_stream (top args kw)); [discriminate|]); rewrite HT in E; cbn [bind] in E;
      rewrite streams_top in *; (destruct (top_streams args kw) as [|x0 ss] eqn:Es; [destruct self; discriminate|]);
      assert (G : exists nn, DStream y = DStream (mkSt t nn (smeta x0)) /\ rename (ndim t) (names x0) = Ok nn)
        by (destruct self; (destruct (rename (ndim t) (names x0)) as [nn|e] eqn:Er; [|discriminate]; cbn [bind] in E; exists nn; split; [congruence|auto]));
      destruct G as (nn & G & Er); injection G as ->; cbn [tn names smeta].
    + reflexivity.
    + assert (nn = names x0) as ->.
      { pose proof (HNE x0 (or_introl eq_refl)) as Hx. unfold rename in Er. destruct (names x0); [contradiction|]. unfold refine_names in Er. destruct (_ && _); congruence. }
      split; [apply HD; now left|]. intros x Hx.
      assert (names x = names x0) as ->; [|auto]. destruct Hx as [<-|Hx]; [reflexivity|]. cbn [map hd tl] in En. rewrite forallb_forall in En.
      specialize (En (names x) (in_map _ _ _ Hx)). now apply dname_list_eqb in En.
    + exists x0. split; [now left|reflexivity].
  - destruct HT as (HT & ->). unfold inplace_recouple in E. destruct args as [|a r]; [discriminate|].
    unfold decouple_call in E. destruct (existsb nested_stream (top (a :: r) kw)); [discriminate|]. rewrite HT in E. cbn [bind] in E.
    destruct a as [x|? ?|?|?]; try discriminate. injection E as <-. cbn [tn names smeta].
    split; [reflexivity|]. split; [apply (HI eq_refl x r eq_refl)|]. split; [|exists x; split; [now left|reflexivity]].
    destruct HS as [[[H|H] _]|HS]; try discriminate. exact HS.
  - pose proof (SS (or_introl eq_refl)) as HS'. unfold default_valid, super_call in E. rewrite HT in E. cbn [bind] in E.
    destruct (all_eq _ _) as [b|e]; [|discriminate]. cbn [bind] in E. destruct b; [|discriminate]. cbn [negb] in E. rewrite <- streams_top in E.
    assert (G : exists x0 ss, streams args kw = x0 :: ss /\ y = mkSt t n (smeta x0)).
    { destruct (streams args kw) as [|x0 ss] eqn:Es; cbn [map] in E.
      - exfalso. destruct self; cbn [convert] in E; [destruct (hd_error args) as [[x|? ?|?|?]|]|]; discriminate.
      - exists x0, ss. split; [reflexivity|]. destruct self; cbn [convert] in E; [destruct (hd_error args) as [[x|? ?|?|?]|]|]; cbn [tn names] in E; congruence. }
    destruct G as (x0 & ss & Es & ->). cbn [tn names smeta]. split; [reflexivity|]. split; [apply HU; auto|]. split; [exact HS'|].
    exists x0. rewrite Es. split; [now left|reflexivity].
Qed.

(** Everything that can be computed from tensors in agreement is in agreement. *)
Lemma built_aligned (given : @stensor V -> Prop) y : (forall x, given x -> aligned x) -> built real owner time given y -> aligned y.
Proof.
  intros HG H. induction H as [x Hx|x y H IH HO|x0 x1 xs dim bd y H IH HK HD HB E|x0 x1 xs dim ld y H IH HK HD HL Hne HO E
    |x0 x1 xs dim d nm y H IH HK HD HN NB NL HM E|custom f impl args kw self t n g y H IH HS HT HU HI HE HL E].
  - now apply HG.
  - exact (op_aligned real owner time x y IH HO).
  - exact (cat_batch_aligned real owner time x0 x1 xs dim bd y IH HK HD HB E).
  - exact (cat_length_aligned real owner time x0 x1 xs dim ld y IH HK HD HL Hne HO E).
  - exact (cat_other_aligned real owner time x0 x1 xs dim d nm y IH HK HD HN NB NL HM E).
  - destruct (call_result custom f impl args kw self t n y HS HT) as (Et & Hu & Hs & Hm); auto.
    + intros x Hx. destruct (IH x Hx) as (bd & ld & c & rs & T & [S _ _ _]). intros En. pose proof (so_bname _ _ _ _ _ _ S) as B. rewrite En in B. destruct bd; discriminate.
    + intros x Hx. destruct (IH x Hx) as (bd & ld & c & rs & T & [S _ _ _]). exact (so_distinct _ _ _ _ _ _ S).
    + subst t. exact (pointwise_aligned g _ y HE HL IH Hs Hu Hm).
Qed.

End AlignPoint.

(** What padding tensors of any rank should produce, independent of the model. *)

From Coq Require Import String List ZArith Bool Lia.
From Verif Require Import Py Meta MetaSpec Named NamedSpec.
Import ListNotations.
Open Scope Z_scope.

(** [t] has the rank of [t0] and its sizes, except perhaps in dimension [k]. *)
Definition alike_but {V} (k : nat) (t0 t : @tensor V) : Prop :=
  length (shp t) = length (shp t0) /\ (forall d, d <> k -> nth d (shp t) 0 = nth d (shp t0) 0).

(** The same, but a size 1 may stand for any size. *)
Definition nearly_alike_but {V} (k : nat) (t0 t : @tensor V) : Prop :=
  length (shp t) = length (shp t0) /\
  (forall d, (d < length (shp t0))%nat -> d <> k -> nth d (shp t) 0 = nth d (shp t0) 0 \/ nth d (shp t) 0 = 1).

(** The position of a dimension of size 1 is always read as 0. *)
Definition reads_at (s ix jx : list Z) : Prop :=
  length jx = length s /\
  (forall d, (d < length s)%nat -> nth d jx 0 = if nth d s 0 =? 1 then 0 else nth d ix 0).

Definition greatest (m : Z) (l : list Z) : Prop := In m l /\ Forall (fun n => n <= m) l.

(** [r] holds the tensors [ts] one after the other along a new first dimension; dimension [k] is padded with [z] to the
    greatest size, the other sizes are those of [t0]. *)
Record stacked {V} (z : V) (k : nat) (t0 : @tensor V) (ts : list (@tensor V)) (r : @tensor V) : Prop := mkStacked {
  sk_rank : length (shp r) = S (length (shp t0));
  sk_batch : nth 0 (shp r) 0 = zlen ts;
  sk_sizes : forall d, d <> k -> nth (S d) (shp r) 0 = nth d (shp t0) 0;
  sk_longest : greatest (nth (S k) (shp r) 0) (map (fun t => nth k (shp t) 0) ts);
  sk_data : forall b t ix jx, nth_error ts b = Some t -> length ix = length (shp t0) -> reads_at (shp t) ix jx ->
              nth k ix 0 < nth k (shp t) 0 -> at_ r (Z.of_nat b :: ix) = at_ t jx;
  sk_pad : forall b t ix, nth_error ts b = Some t -> length ix = length (shp t0) ->
              nth k (shp t) 0 <= nth k ix 0 -> at_ r (Z.of_nat b :: ix) = z
}.

(** What pad_chunks makes of tensors [ts] whose dimensions are called [pre ++ L :: post]: names, sizes, metadata and data.
    [lead bf x y]: batch first or length first. *)
Definition lead {A} (bf : bool) (b l : A) : list A := if bf then [b; l] else [l; b].

Record padded {V} (z : V) (bf : bool) (pre post : list dname) (t0 : @tensor V) (ts : list (@tensor V)) (i : list string)
    (s e : list bool) (x : @stensor V) : Prop := mkPadded {
  pd_names : names x = lead bf (Some "B"%string) (Some "L"%string) ++ pre ++ post;
  pd_meta : smeta x = mkMeta i s e (map (fun t => nth (length pre) (shp t) 0) ts) None;
  pd_sizes : exists m s1 n s2, shp t0 = s1 ++ n :: s2 /\ length s1 = length pre /\ length s2 = length post /\
               shp (tn x) = lead bf (zlen ts) m ++ s1 ++ s2 /\ greatest m (map (fun t => nth (length pre) (shp t) 0) ts);
  pd_data : forall b t a p c jx, nth_error ts b = Some t -> length a = length pre -> length c = length post ->
              reads_at (shp t) (a ++ p :: c) jx -> p < nth (length pre) (shp t) 0 ->
              at_ (tn x) (lead bf (Z.of_nat b) p ++ a ++ c) = at_ t jx;
  pd_pad : forall b t a p c, nth_error ts b = Some t -> length a = length pre -> length c = length post ->
              nth (length pre) (shp t) 0 <= p -> at_ (tn x) (lead bf (Z.of_nat b) p ++ a ++ c) = z
}.

(** Everything of stream [b] except its padding: the selection x[b, :n] with the length dimension at [ld]. *)
Definition unpad_sel (nd bd ld : nat) (b n : Z) : list sel :=
  map (fun d => if Nat.eqb d bd then Drop b else if Nat.eqb d ld then Keep (positions n) else Full) (seq 0 nd).

(** Its metadata: a stream without data loses its flags. *)
Definition unpad_row (r : row) : row :=
  mkRow (rid r) (rsos r && (0 <? rlen r)) (reos r && (0 <? rlen r)) (rlen r) (rch r).

(** The columns of a tensor along dimension [k]: the values of all other dimensions at one position, the other indices
    given as those before and those after dimension [k]. *)
Definition columns {V} (k : nat) (t : @tensor V) : list (list Z * list Z -> V) :=
  map (fun p ac => at_ t (fst ac ++ p :: snd ac)) (positions (nth k (shp t) 0)).

(** Tensors that can be padded: dimensions called [pre ++ L :: post] without B, equal sizes except at L, and rows [rs] that
    give their lengths. *)
Definition pad_ready {V} (pre post : list dname) (t0 : @tensor V) (l : list (@tensor V)) (rs : list row) : Prop :=
  names_distinct (pre ++ Some "L"%string :: post) /\ ~ In (Some "B"%string) (pre ++ post) /\
  length (shp t0) = (length pre + S (length post))%nat /\
  Forall (alike_but (length pre) t0) (t0 :: l) /\ Forall (fun t => Forall (fun n => 0 <= n) (shp t)) (t0 :: l) /\
  Forall2 (fun r t => rlen r = nth (length pre) (shp t) 0) rs (t0 :: l).

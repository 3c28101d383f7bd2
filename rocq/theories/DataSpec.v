(** Vocabulary for the statements about datasets and loaders. *)

From Coq Require Import String List ZArith Bool Lia Permutation.
From Verif Require Import Py Meta Pad Data.
Import ListNotations.
Open Scope nat_scope.

(** The generator yields exactly the items of the list and then stops. *)
Definition yields {A} (g : gen A) (l : list A) : Prop := g = gen_of l.

(** Any two of the numbers differ by at most M. *)
Definition balanced (M : Z) (sums : list Z) : Prop :=
  forall j k x y, nth_error sums j = Some x -> nth_error sums k = Some y -> (x - y <= M)%Z.

(** The number of chunks of a file as estimated from its duration: duration / chunk duration, rounded. *)
Definition estimate (d : dataset) (f : string) : Z :=
  match lookup f (dlens d) with
  | Some l => match py_round (fst l * dcd d) (snd l * dcn d) with Ok r => r | Err _ => 0%Z end
  | None => 0%Z
  end.

Section DataSpec.
Context {V : Type}.
Implicit Types (l : list (sample V)).

(** The samples of one file among others, in order. *)
Definition of_file (f : string) l : list (sample V) := filter (fun s => String.eqb (sid s) f) l.

(** All chunks of one file: start flag on the first one only, end flag on the last one only. *)
Definition complete_file l : Prop :=
  l <> [] /\ forall k s, nth_error l k = Some s -> ssos s = (k =? 0) /\ seos s = (S k =? length l).

(** The first chunks of a file, the last of them marked as the end. *)
Definition ended_prefix l (full : list (sample V)) : Prop :=
  exists n s, nth_error full n = Some s /\
    l = firstn n full ++ [mkSample (sdata s) (ssos s) true (slen s) (sidx s) (snum s) (sid s)].

(** The file is started and ended: its first sample has the start flag and its last one the end flag. *)
Definition started_ended l : Prop :=
  (exists s t, l = s :: t /\ ssos s = true) /\ (exists h e, l = h ++ [e] /\ seos e = true).

(** A stream of batches as the datasets produce them: the first batch is not empty and starts all its files, and over the
    whole stream the chunks of every file are complete. *)
Definition well_formed (bs : list (list (sample V))) : Prop :=
  (exists b t, bs = b :: t /\ b <> [] /\ Forall (fun s => ssos s = true) b) /\
  forall f, of_file f (List.concat bs) = [] \/ complete_file (of_file f (List.concat bs)).

(** The dataset can be split: every file has a length, the divisions are possible and, where a header is needed, it can be read. *)
Definition splittable (w : world V) (d : dataset) : Prop :=
  (forall f, In f (dfiles d) -> exists a : Z * Z, lookup f (dlens d) = Some a /\ (snd a * dcn d <> 0)%Z) /\
  (dmeta d = [] /\ (forall f, In f (dfiles d) -> exists i, info w f = Ok i /\ snd i <> 0%Z) \/
   dmeta d <> [] /\ (forall f, In f (dfiles d) -> exists i, lookup f (dmeta d) = Some i /\ snd i <> 0%Z)).

End DataSpec.

Section SyncSpec.
Context {V : Type}.
Implicit Types (l : list (sample V)).

(** Every file that has a sample in the list also has its end there. *)
Definition all_ended l : Prop :=
  forall s, In s l -> exists e, In e l /\ sid e = sid s /\ seos e = true.

(** Files start together: a batch with a start flag has only start flags, and comes after the end of all earlier files. *)
Definition in_groups (out : list (list (sample V))) : Prop :=
  forall k b, nth_error out k = Some b ->
    (Forall (fun s => ssos s = true) b /\ all_ended (List.concat (firstn k out))) \/ Forall (fun s => ssos s = false) b.

(** Groups are as large as possible: when files start, [bs] of them start, or all files of the stream have started. *)
Definition full_groups (bs : nat) (out : list (list (sample V))) : Prop :=
  forall k b, nth_error out k = Some b -> Forall (fun s => ssos s = true) b ->
    length b = bs \/ forall s, In s (List.concat out) -> In (sid s) (map sid (List.concat (firstn (S k) out))).

End SyncSpec.

(** Theorems of record: the text of metadata (C62). [r] stands for repr() of a string, which adds at least the two quotes. *)

From Coq Require Import String List ZArith Bool Lia.
From Coq Require Import ZifyBool.
From Verif Require Import Py Meta Repr ReprProofs.
Import ListNotations.
Open Scope string_scope.
Open Scope list_scope.
Open Scope nat_scope.

Lemma bracketed x rest : (("[" ++ x ++ "]") ++ "," ++ rest = "[" ++ x ++ "]," ++ rest)%string.
Proof. cbn [String.append]. f_equal. induction x as [|c x IH]; cbn [String.append]; [reflexivity|]. f_equal. exact IH. Qed.

(** Up to 80 characters of ids: all are shown. *)
Theorem C62_all_ids : forall r m rb rt, list_sum (map String.length (ids m)) <= 80 ->
  repr_meta r rb rt m =
    Ok ("StreamMetadata(" ++ newline ++ "    ids=[" ++ String.concat ", " (map r (ids m)) ++ "]," ++ newline ++ "    sos=" ++ rb (sos m) ++ "," ++ newline ++
        "    eos=" ++ rb (eos m) ++ "," ++ newline ++ "    lengths=" ++ rt (lens m) ++ "," ++ newline ++ ")")%string.
Proof.
  intros r m rb rt H. unfold repr_meta. rewrite (repr_full r (ids m) H). cbn [bind]. unfold repr_list, joined.
  rewrite bracketed. reflexivity.
Qed.

(** More: the first ids, dots and the last one. Not all ids are repeated, at least one is shown, and the text of the ids shown stays
    within 81 characters unless only one is shown; one more would reach the limit. The last id is quoted twice. *)
Theorem C62_shortened_text : forall r ids, (forall s, String.length s + 2 <= String.length (r s)) -> 80 < list_sum (map String.length ids) -> 2 <= length ids ->
  exists k last next, 1 <= k < length ids /\ nth_error ids (length ids - 1) = Some last /\ nth_error ids k = Some next /\
    let text := String.concat ", " (map r (firstn k ids)) in
    repr_ids r ids = Ok (text ++ ", ..., " ++ r (r last))%string /\
    (k = 1 \/ String.length text + 7 + String.length (r last) <= 81) /\
    80 <= String.length text + 7 + String.length (r last) + String.length (r next).
Proof.
  intros r ids Hr Hs Hn. destruct (repr_shortened r ids Hr Hs Hn) as (k & last & next & H1 & H2 & H3 & H4 & H5 & H6).
  exists k, last, next. split; [exact H1|]. split; [exact H2|]. split; [exact H3|]. cbv zeta. fold (joined (map r (firstn k ids))). rewrite joined_width.
  split; [exact H4|]. split; [destruct H5; [now left|right; lia]|exact H6].
Qed.

(** It fails exactly for a single stream with an id of more than 80 characters. *)
Theorem C62_fails_iff : forall r rb rt m, (forall s, String.length s + 2 <= String.length (r s)) ->
  (exists e, repr_meta r rb rt m = Err e) <-> exists a, ids m = [a] /\ 80 < String.length a.
Proof.
  intros r rb rt m Hr. rewrite <- (repr_fails_iff r (ids m) Hr). unfold repr_meta. destruct (repr_ids r (ids m)) as [s|e]; cbn [bind]; split; intros (e' & E); try discriminate; eauto.
Qed.

(** repr() of texts without quotes and backslashes. *)
Definition quote (s : string) : string := ("'" ++ s ++ "'")%string.
Lemma quote_longer s : String.length s + 2 <= String.length (quote s).
Proof. unfold quote. rewrite !length_append. cbn. lia. Qed.

Definition long_id : string := "/data/recordings/2023/a-very-long-directory-name/another-one/and-one-more/file0001.wav".
Theorem C62_long_id_refuted : make_meta [long_id] [true] [true] [5%Z] None = Ok (mkMeta [long_id] [true] [true] [5%Z] None) /\
  repr_meta quote (fun _ => "...") (fun _ => "...") (mkMeta [long_id] [true] [true] [5%Z] None) = Err IndexError.
Proof. split; vm_compute; reflexivity. Qed.

(** Five ids of 24 characters; the last one ends up in two pairs of quotes. *)
Definition five_ids : list string := map (fun d => ("recording-2023-05-04-000" ++ d)%string) ["1"; "2"; "3"; "4"; "5"].
Example C62_text_example :
  repr_ids quote five_ids = Ok "'recording-2023-05-04-0001', ..., ''recording-2023-05-04-0005''" /\
  repr_ids quote ["a"; "b"] = Ok "['a', 'b']".
Proof. split; vm_compute; reflexivity. Qed.
(** Fifty short ids. *)
Definition fifty_ids : list string := repeat "ab" 50.
Example C62_text_many :
  repr_ids quote fifty_ids = Ok ("'ab', 'ab', 'ab', 'ab', 'ab', 'ab', 'ab', 'ab', 'ab', 'ab', 'ab', 'ab', ..., ''ab''").
Proof. vm_compute. reflexivity. Qed.

(* ---- assumptions *)
Print Assumptions C62_all_ids.
Print Assumptions C62_shortened_text.
Print Assumptions C62_fails_iff.
Print Assumptions C62_long_id_refuted.

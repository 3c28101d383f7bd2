(** Theorems of record: the lists of functions, how they are written and loaded (C71).

    [ta] and [te] give the attributes of torch and of torch.Tensor. *)

From Coq Require Import String Ascii List ZArith Bool Lia Permutation.
From Verif Require Import Py MetaProofs Dispatch Lists ListsSpec ListsProofs.
Import ListNotations.
Open Scope string_scope.
Open Scope list_scope.
Open Scope nat_scope.

(** The file names of the four lists. *)
Definition stems : list (kind * string) :=
  [(DefaultValid, "default-valid-pointwise-ops-"); (Valid, "valid-pointwise-ops-");
   (Recouple, "recouple-pointwise-ops-"); (InplaceRecouple, "inplace-recouple-pointwise-ops-")].

Lemma stems_stem k pre : In (k, pre) stems -> pre = stem k.
Proof. intros H. repeat (destruct H as [H|H]; [injection H as <- <-; reflexivity|]). destruct H. Qed.

(** A list is loaded from the file with its name, if there is one such file, and contains what the lines name. *)
Theorem C71_loads : forall (O : Type) (ta te : string -> option O) d k pre date ls os,
  In (k, pre) stems -> In ((pre ++ date ++ ".txt")%string, join_lines ls) d ->
  (forall n c, In (n, c) d -> begins pre n -> ends ".txt" n -> n = (pre ++ date ++ ".txt")%string /\ c = join_lines ls) ->
  ls <> [] -> Forall one_line ls -> Forall2 (fun x o => get_tensor_attr ta te x = Ok o) ls os ->
  load ta te d k = Ok os.
Proof.
  intros O ta te d k pre date ls os Hk Hin H Hne Hl Ho. apply stems_stem in Hk. subst pre.
  rewrite (load_content ta te d k date (join_lines ls) Hin H), split_join by assumption.
  clear -Ho. induction Ho as [|x o l l' H _ IH]; [reflexivity|]. rewrite mapM_cons, H. cbn [bind]. rewrite IH. reflexivity.
Qed.

(** Names with the prefix "Tensor." are looked up in torch.Tensor, the others in torch; what is not found is an AttributeError. *)
Theorem C71_attributes : forall (O : Type) (ta te : string -> option O) x,
  (~ begins "Tensor." x -> get_tensor_attr ta te x = match ta x with Some o => Ok o | None => Err AttributeError end) /\
  (~ occurs "Tensor." x -> get_tensor_attr ta te ("Tensor." ++ x)%string = match te x with Some o => Ok o | None => Err AttributeError end).
Proof. intros O ta te x. split; [apply get_tensor_attr_torch|apply get_tensor_attr_tensor]. Qed.

(** What the scraper writes is loaded again, in whatever order the directory is listed, if no class is empty. *)
Theorem C71_round_trip_partial : forall (O : Type) (ta te : string -> option O) date cls d k,
  Permutation (files date cls) d -> cls k <> [] -> Forall one_line (cls k) ->
  load ta te d k = mapM (get_tensor_attr ta te) (cls k).
Proof.
  intros O ta te date cls d k P Hne Hl. destruct (files_one ta te date cls d k P) as [F1 F2].
  rewrite (load_content ta te d k date _ F1 F2), split_join by assumption. reflexivity.
Qed.

(** A list without functions is written as an empty file, which cannot be loaded. *)
Theorem C71_empty_refuted : forall (O : Type) (ta te : string -> option O) date cls d k,
  Permutation (files date cls) d -> cls k = [] -> ta "" = None -> load ta te d k = Err AttributeError.
Proof.
  intros O ta te date cls d k P He Ht. destruct (files_one ta te date cls d k P) as [F1 F2]. apply (load_blank ta te d k date _ F1 F2); [|exact Ht].
  rewrite He. now left.
Qed.

(** Nor can a file that ends with a line end. *)
Theorem C71_final_newline_refuted : forall (O : Type) (ta te : string -> option O) k pre date text,
  In (k, pre) stems -> ta "" = None -> load ta te [((pre ++ date ++ ".txt")%string, (text ++ String NL "")%string)] k = Err AttributeError.
Proof.
  intros O ta te k pre date text Hk Ht. apply stems_stem in Hk. subst pre. apply (load_blank ta te _ k date (text ++ String NL "")%string); [now left| | |exact Ht].
  - intros n c [E|[]] _ _. injection E as <- <-. auto.
  - rewrite split_app_nl. apply in_or_app. right. now left.
Qed.

(** With two files for one list the order in which the directory is listed decides. *)
Theorem C71_two_files_refuted : forall k, exists (ta te : string -> option nat) d d' os os',
  Permutation d d' /\ load ta te d k = Ok os /\ load ta te d' k = Ok os' /\ os <> os'.
Proof.
  intros k. exists (fun x => Some (String.length x)), (fun _ => None), [((stem k ++ "2023.txt")%string, "abs"); ((stem k ++ "2024.txt")%string, "arccos")],
    [((stem k ++ "2024.txt")%string, "arccos"); ((stem k ++ "2023.txt")%string, "abs")], [3], [6].
  split; [apply perm_swap|]. destruct k; (split; [vm_compute; reflexivity|]); (split; [vm_compute; reflexivity|]); discriminate.
Qed.

(** Loading fails with IndexError exactly if there is no file with the name of the list; then the package cannot be imported. *)
Theorem C71_missing : forall (O : Type) (ta te : string -> option O) d k pre, In (k, pre) stems ->
  (load ta te d k = Err IndexError <-> forall n c, In (n, c) d -> ~ exists date, n = (pre ++ date ++ ".txt")%string) /\
  (load ta te d k = Err IndexError -> exists e, import_dreamstream ta te d = Err e).
Proof.
  intros O ta te d k pre Hk. apply stems_stem in Hk. subst pre. split; [apply load_missing_iff|]. intros H. unfold import_dreamstream.
  destruct (load ta te d DefaultValid) eqn:E1; cbn [bind]; [|eauto]. destruct (load ta te d Valid) eqn:E2; cbn [bind]; [|eauto].
  destruct (load ta te d Recouple) eqn:E3; cbn [bind]; [|eauto]. destruct (load ta te d InplaceRecouple) eqn:E4; cbn [bind]; [|eauto]. destruct k; congruence.
Qed.

(** The script that writes the lists always fails when it is run in its directory: it needs the lists, and refuses to run when they exist. *)
Theorem C71_scraper_refuted : forall (O : Type) (ta te : string -> option O) callable plainly recoupled pwo date d,
  exists e, scrape ta te callable plainly recoupled pwo date d d = Err e.
Proof. intros O ta te. exact (scrape_never ta te). Qed.

(** Run elsewhere it writes them, and what is loaded from there are the classes of functions. *)
Theorem C71_scraper_elsewhere : forall (O : Type) (ta te : string -> option O) callable plainly recoupled pwo date d os,
  import_dreamstream ta te d = Ok os ->
  scrape ta te callable plainly recoupled pwo date d [] = Ok (files date (class_of callable plainly recoupled (func_names ta te pwo))).
Proof. intros O ta te callable plainly recoupled pwo date d os H. unfold scrape. rewrite H. reflexivity. Qed.

(** Classified are exactly the documented functions and their in-place variants: those of torch by their names, methods with the prefix "Tensor.". *)
Theorem C71_found : forall (O : Type) (ta te : string -> option O) pwo f,
  In f (func_names ta te pwo) <->
  exists n g, In n pwo /\ (g = n \/ g = (n ++ "_")%string) /\ ((f = g /\ ta g <> None) \/ (f = ("Tensor." ++ g)%string /\ te g <> None)).
Proof.
  intros O ta te pwo f. unfold func_names. rewrite in_flat_map.
  assert (I : forall (ns : string -> option O) x y, In f (if has ns x then [y] else []) <-> f = y /\ ns x <> None).
  { intros ns x y. unfold has. destruct (ns x); cbn [In]; split; try tauto; [intros [->|[]]; split; [reflexivity|discriminate]|intros [-> _]; now left]. }
  split.
  - intros (n & Hn & H). rewrite !in_app_iff, !I in H. destruct H as [H|[H|[H|H]]]; exists n; [exists n|exists n|exists (n ++ "_")%string|exists (n ++ "_")%string]; auto.
  - intros (n & g & Hn & [E|E] & H); subst g; exists n; (split; [exact Hn|]); rewrite !in_app_iff, !I; destruct H as [H|H]; auto.
Qed.

(** The classes: a function is in at most one; it is in a class of in-place functions exactly if its name ends with an underscore; functions that
    need their names removed are those that fail otherwise. Left out are those that cannot be called in either way and those with rules written by hand. *)
Theorem C71_classes : forall callable plainly recoupled fs,
  (forall k k' f, In f (class_of callable plainly recoupled fs k) -> In f (class_of callable plainly recoupled fs k') -> k = k') /\
  (forall k f, In f (class_of callable plainly recoupled fs k) -> In f fs /\ callable f = true /\
    (ends "_" f <-> k = Valid \/ k = InplaceRecouple) /\
    (k = Valid \/ k = DefaultValid -> plainly f = true) /\ (k = Recouple \/ k = InplaceRecouple -> plainly f = false /\ recoupled f = true)) /\
  (forall f, (exists k, In f (class_of callable plainly recoupled fs k)) <->
    In f fs /\ callable f = true /\ (plainly f = true \/ recoupled f = true) /\
    ~ (occurs "quantize" f \/ ends "real" f \/ ends "imag" f \/ ends "frexp" f \/ ends "gradient" f)).
Proof.
  intros c p r fs. split; [intros k k' f; apply class_unique|]. split; [intros k f; apply class_spec|]. intros f. rewrite <- by_hand_iff. split.
  - intros [k H]. pose proof (class_spec _ _ _ _ _ _ H) as (H1 & H2 & H3 & H4 & H5). split; [exact H1|]. split; [exact H2|]. split.
    + destruct k; [left; apply H4; auto|left; apply H4; auto|right; apply H5; auto|right; apply H5; auto].
    + intros B. unfold class_of in H. apply filter_In in H as [_ H]. unfold classify in H. rewrite B in H. discriminate.
  - intros (H1 & H2 & H3 & H4). apply class_complete; [exact H1|destruct (by_hand f); [now contradiction H4|reflexivity]|exact H2|].
    apply orb_true_iff. exact H3.
Qed.

(** The lists are looked for in doc_scrape/lists next to the package, if the path is written with slashes. *)
Theorem C71_path_partial : forall root, only_at_end "/dreamstream/utils/listloaders.py" (root ++ "/dreamstream/utils/listloaders.py")%string ->
  lists_path (root ++ "/dreamstream/utils/listloaders.py")%string = (root ++ "/doc_scrape/lists")%string.
Proof. intros root H. apply replace_end; [discriminate|exact H]. Qed.

(** Otherwise the path of the module itself is taken for the directory. *)
Theorem C71_path_refuted : forall file, ~ occurs "/dreamstream/utils/listloaders.py" file -> lists_path file = file.
Proof. intros file. apply replace_none. Qed.

(** The lists of the repository: they are loaded as they are, in-place functions are in the lists for them, no name is in two lists or twice in one, and heaviside_ is in none. *)
Theorem C71_repository : forall (O : Type) (ta te : string -> option O) date d k, Permutation (files date repo_lists) d ->
  load ta te d k = mapM (get_tensor_attr ta te) (repo_lists k) /\
  (forall f, In f (repo_lists k) -> (ends "_" f <-> k = Valid \/ k = InplaceRecouple)) /\
  NoDup (repo_lists DefaultValid ++ repo_lists Valid ++ repo_lists Recouple ++ repo_lists InplaceRecouple) /\
  ~ In "torch.Tensor.heaviside_" (repo_lists k) /\ ~ In "Tensor.heaviside_" (repo_lists k).
Proof.
  intros O ta te date d k P.
  assert (L : forall k, Forall one_line (repo_lists k)).
  { intros k'. apply Forall_forall. assert (G : forallb (fun s => negb (contains (String NL "") s)) (repo_lists k') = true) by (destruct k'; vm_compute; reflexivity).
    rewrite forallb_forall in G. intros x Hx (a & b & E). specialize (G x Hx). apply negb_true_iff in G. clear -E G. subst x.
    induction a as [|c a IH].
    - assert (F : contains (String NL "") (String NL b) = true) by (cbn [contains]; replace (String.prefix (String NL "") (String NL b)) with true; [reflexivity|symmetry; apply prefix_iff; now exists b]).
      cbn [String.append] in G. change (ascii_of_nat 10) with NL in G. congruence.
    - cbn [String.append contains] in G. apply orb_false_iff in G as [_ G]. now apply IH. }
  split; [|split; [|split]].
  - apply (C71_round_trip_partial O ta te date repo_lists d k P); [destruct k; discriminate|apply L].
  - assert (G : forallb (fun s => Bool.eqb (ends_with "_" s) (match k with Valid | InplaceRecouple => true | _ => false end)) (repo_lists k) = true) by (destruct k; vm_compute; reflexivity).
    rewrite forallb_forall in G. intros f Hf. specialize (G f Hf). apply eqb_prop in G. rewrite <- ends_with_iff, G.
    destruct k; split; auto; try discriminate; intros [|]; discriminate.
  - set (l := _ ++ _). assert (E : nodup string_dec l = l) by (vm_compute; reflexivity). rewrite <- E. apply NoDup_nodup.
  - assert (G : existsb (fun s => String.eqb s "torch.Tensor.heaviside_" || String.eqb s "Tensor.heaviside_") (repo_lists k) = false) by (destruct k; vm_compute; reflexivity).
    apply not_true_iff_false in G. rewrite existsb_exists in G. split; intros H; apply G; eexists; (split; [exact H|reflexivity]).
Qed.

(* ---------- examples ---------- *)

Example C71_ex_load : exists d, Permutation (files "2023" (fun k => match k with Valid => ["abs_"; "Tensor.abs_"] | _ => ["x"] end)) d /\
  load (fun x => Some (false, x)) (fun x => Some (true, x)) d Valid = Ok [(false, "abs_"); (true, "abs_")].
Proof. eexists. split; [apply Permutation_rev|]. vm_compute. reflexivity. Qed.

Example C71_ex_apart : glob "valid-pointwise-ops-*.txt" [("default-valid-pointwise-ops-1.txt", "a"); ("valid-pointwise-ops-1.txt", "b"); ("valid-pointwise-ops-1.csv", "c")]
  = [("valid-pointwise-ops-1.txt", "b")].
Proof. vm_compute. reflexivity. Qed.

Example C71_ex_path : lists_path "/home/u/repo/dreamstream/utils/listloaders.py" = "/home/u/repo/doc_scrape/lists" /\
  lists_path "C:\repo\dreamstream\utils\listloaders.py" = "C:\repo\dreamstream\utils\listloaders.py".
Proof. vm_compute. auto. Qed.

Example C71_ex_root : only_at_end "/dreamstream/utils/listloaders.py" ("/r" ++ "/dreamstream/utils/listloaders.py")%string.
Proof.
  split; [exists "/r"; reflexivity|]. intros a b E. destruct a as [|x [|y [|z a]]]; cbn [String.append] in E; try congruence.
  exfalso. apply (f_equal String.length) in E. cbn [String.length] in E. rewrite !sapp_length in E. cbn [String.length] in E. lia.
Qed.

Example C71_ex_prefix_twice : get_tensor_attr (fun x => Some (false, x)) (fun x => Some (true, x)) "Tensor.Tensor.abs" = Ok (true, "abs").
Proof. vm_compute. reflexivity. Qed.

Example C71_ex_scrape :
  let ta := fun x => if existsb (String.eqb x) ["abs"; "frexp"; "sgn"] then Some x else None in
  let te := fun x => if existsb (String.eqb x) ["abs"; "abs_"; "sgn_"] then Some x else None in
  func_names ta te ["abs"; "frexp"; "sgn"] = ["abs"; "Tensor.abs"; "Tensor.abs_"; "frexp"; "sgn"; "Tensor.sgn_"] /\
  map (class_of (fun _ => true) (fun f => contains "abs" f) (fun _ => true) ["abs"; "Tensor.abs"; "Tensor.abs_"; "frexp"; "sgn"; "Tensor.sgn_"])
    [DefaultValid; Valid; Recouple; InplaceRecouple] = [["abs"; "Tensor.abs"]; ["Tensor.abs_"]; ["sgn"]; ["Tensor.sgn_"]].
Proof. vm_compute. auto. Qed.

(* ---- assumptions *)
Print Assumptions C71_loads.
Print Assumptions C71_attributes.
Print Assumptions C71_round_trip_partial.
Print Assumptions C71_empty_refuted.
Print Assumptions C71_final_newline_refuted.
Print Assumptions C71_two_files_refuted.
Print Assumptions C71_missing.
Print Assumptions C71_scraper_refuted.
Print Assumptions C71_scraper_elsewhere.
Print Assumptions C71_found.
Print Assumptions C71_classes.
Print Assumptions C71_path_partial.
Print Assumptions C71_path_refuted.
Print Assumptions C71_repository.

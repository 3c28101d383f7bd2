(** dreamstream/utils/listloaders.py, and doc_scrape/pointwise-ops.py, which writes the lists it loads.

    - A directory is the list of the names and contents of its files in the order in which the operating system lists them.
    - torch and torch.Tensor are two functions from attribute names to objects.
    - Files are read as text without translation of line ends. The path of the directory contains none of the characters that are
      special to glob; otherwise the behaviour is not modelled.
    - What the tries of the scraper (121-174) with torch functions yield are parameters. *)

From Coq Require Import String Ascii List ZArith Bool Lia.
From Verif Require Import Py Dispatch.
Import ListNotations.
Open Scope string_scope.
Open Scope list_scope.

Definition NL : ascii := ascii_of_nat 10.

(** s.split("\n") (listloaders.py 16, 22, 28, 34): one item more than there are line ends. *)
Fixpoint split_lines (s : string) : list string :=
  match s with
  | EmptyString => [EmptyString]
  | String c t =>
      if Ascii.eqb c NL then EmptyString :: split_lines t
      else match split_lines t with [] => [String c EmptyString] | l :: ls => String c l :: ls end
  end.

(** "\n".join(l) (pointwise-ops.py 192-198). *)
Fixpoint join_lines (l : list string) : string :=
  match l with
  | [] => EmptyString
  | [a] => a
  | a :: t => (a ++ String NL (join_lines t))%string
  end.

(** s.replace(old, new) for non-empty [old]: occurrences from the left that do not overlap. [skip] characters belong to the
    occurrence just replaced. *)
Fixpoint replace_from (skip : nat) (old new s : string) : string :=
  match s with
  | EmptyString => EmptyString
  | String c t =>
      match skip with
      | S k => replace_from k old new t
      | O => if String.prefix old s then (new ++ replace_from (Nat.pred (String.length old)) old new t)%string
             else String c (replace_from 0 old new t)
      end
  end.
Definition replace (old new s : string) : string := replace_from 0 old new s.

(** listloaders.py 7 *)
Definition lists_path (file : string) : string := replace "/dreamstream/utils/listloaders.py" "/doc_scrape/lists" file.

(** fnmatch for patterns whose only special character is the star. *)
Fixpoint wild (p : string) : string -> bool :=
  match p with
  | EmptyString => fun s => match s with EmptyString => true | _ => false end
  | String c p' =>
      if Ascii.eqb c "*"
      then fix go (s : string) : bool := wild p' s || match s with EmptyString => false | String _ t => go t end
      else fun s => match s with EmptyString => false | String d t => Ascii.eqb c d && wild p' t end
  end.

Definition dir := list (string * string).

(** glob(os.path.join(directory, pattern)): names that start with a dot only match patterns that do. *)
Definition glob (p : string) (d : dir) : dir :=
  filter (fun f => wild p (fst f) && (String.prefix "." p || negb (String.prefix "." (fst f)))) d.

Section Load.
Context {O : Type} (torch_attr tensor_attr : string -> option O).

Definition getattr (ns : string -> option O) (x : string) : res O := match ns x with Some o => Ok o | None => Err AttributeError end.

(** listloaders.py 10-11 *)
Definition get_tensor_attr (x : string) : res O :=
  if String.prefix "Tensor." x then getattr tensor_attr (replace "Tensor." "" x) else getattr torch_attr x.

Inductive kind := DefaultValid | Valid | Recouple | InplaceRecouple.

(** The part of the file name in front of the date (listloaders.py 15, 21, 27, 33; pointwise-ops.py 191-197). *)
Definition stem (k : kind) : string :=
  match k with
  | DefaultValid => "default-valid-pointwise-ops-"
  | Valid => "valid-pointwise-ops-"
  | Recouple => "recouple-pointwise-ops-"
  | InplaceRecouple => "inplace-recouple-pointwise-ops-"
  end.

(** listloaders.py 14-35; the set that is returned is given as the list of what is put into it. IndexError from [0] of no file. *)
Definition load (d : dir) (k : kind) : res (list O) :=
  match glob (stem k ++ "*.txt")%string d with
  | [] => Err IndexError
  | (_, content) :: _ => mapM get_tensor_attr (split_lines content)
  end.

(** Importing dreamstream.tensor loads all four lists (func_coverage.py 18-21, tensor.py 10-18). *)
Definition import_dreamstream (d : dir) : res unit :=
  do _ <- load d DefaultValid;
  do _ <- load d Valid;
  do _ <- load d Recouple;
  do _ <- load d InplaceRecouple;
  Ok tt.

(* ---------- the scraper ---------- *)

Definition has (ns : string -> option O) (x : string) : bool := match ns x with Some _ => true | None => false end.

(** pointwise-ops.py 88-97 *)
Definition func_names (pwo : list string) : list string :=
  flat_map (fun n =>
    (if has torch_attr n then [n] else []) ++
    (if has tensor_attr n then [("Tensor." ++ n)%string] else []) ++
    (if has torch_attr (n ++ "_")%string then [(n ++ "_")%string] else []) ++
    (if has tensor_attr (n ++ "_")%string then [("Tensor." ++ n ++ "_")%string] else [])) pwo.

Fixpoint ends_with (suf s : string) : bool :=
  String.eqb s suf || match s with EmptyString => false | String _ t => ends_with suf t end.
Fixpoint contains (sub s : string) : bool :=
  String.prefix sub s || match s with EmptyString => false | String _ t => contains sub t end.

(** pointwise-ops.py 108-115: handled by hand. *)
Definition by_hand (f : string) : bool :=
  contains "quantize" f || ends_with "real" f || ends_with "imag" f || ends_with "frexp" f || ends_with "gradient" f.

(** pointwise-ops.py 117-176 for one function: [callable] whether one of the tries with one, two or three tensors succeeds (121-143),
    [plainly] whether the function gives the right result as it is or under the default rule (146-157),
    [recoupled] whether it does with names removed and put back (161-172). None: in no list. *)
Definition classify (callable plainly recoupled : string -> bool) (f : string) : option kind :=
  if by_hand f then None
  else
    let inplace := ends_with "_" f in
    if callable f then
      if plainly f then Some (if inplace then Valid else DefaultValid)
      else if recoupled f then Some (if inplace then InplaceRecouple else Recouple)
      else None
    else None.

Definition kind_eqb (a b : kind) : bool :=
  match a, b with DefaultValid, DefaultValid | Valid, Valid | Recouple, Recouple | InplaceRecouple, InplaceRecouple => true | _, _ => false end.

Definition class_of (callable plainly recoupled : string -> bool) (fs : list string) (k : kind) : list string :=
  filter (fun f => match classify callable plainly recoupled f with Some k' => kind_eqb k k' | None => false end) fs.

(** pointwise-ops.py 190-198: four files are added; the order in which they will be listed is not fixed, this is one. *)
Definition files (date : string) (cls : kind -> list string) : dir :=
  map (fun k => ((stem k ++ date ++ ".txt")%string, join_lines (cls k))) [DefaultValid; Valid; Recouple; InplaceRecouple].

(** The script: [d] is the directory doc_scrape/lists of the package, [here] the directory `lists` it is started next to. The plain Exception of
    lines 186-189 is represented by RuntimeError. *)
Definition scrape (callable plainly recoupled : string -> bool) (pwo : list string) (date : string) (d here : dir) : res dir :=
  do _ <- import_dreamstream d;
  let cls := class_of callable plainly recoupled (func_names pwo) in
  match glob "*pointwise-ops*.txt" here with
  | [] => Ok (here ++ files date cls)
  | _ => Err RuntimeError
  end.
End Load.

(** The contents of the four files in doc_scrape/lists: the lists of Dispatch.v, where the last follows torch.Tensor.heaviside_
    (func_coverage.py 123-126). *)
Definition repo_lists (k : kind) : list string :=
  match k with
  | DefaultValid => DEFAULT_POINTWISE
  | Valid => VALID_POINTWISE
  | Recouple => RECOUPLE_POINTWISE
  | InplaceRecouple => tl INPLACE_RECOUPLE
  end.

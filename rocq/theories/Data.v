(** Model of dreamstream/data/stream_dataset.py and of StreamSample (dreamstream/data/data_objects.py 13-25).

    Simplifications:
    - audio is the list of its columns (one column = all channels at one frame); reading a file (torchaudio.load), reading
      its header (torchaudio.info) and the transform are arbitrary functions;
    - durations are exact rationals (numerator, denominator); float rounding is not modelled, round() is half to even;
    - the outcome of random.sample, random.shuffle and np.argsort is an argument;
    - a torch DataLoader with batch_size=None and at most one worker yields the items of its dataset in order;
    - file, file_metadata and num_chunks fields of the samples are only carried along; tqdm, logging, pin_memory etc. are
      left out. *)

From Coq Require Import String List ZArith Bool Lia.
From Verif Require Import Py Meta Pad.
Import ListNotations.
Open Scope Z_scope.

(* ---------- Python helpers ---------- *)

(** A finite run of a generator: the items it yields, and how it ends. *)
Inductive gen (A : Type) : Type :=
| GStop                              (* StopIteration *)
| GRaise (e : exn)                   (* any other exception *)
| GCons (a : A) (g : gen A).
Arguments GStop {A}.
Arguments GRaise {A} e.
Arguments GCons {A} a g.

Fixpoint gen_of {A} (l : list A) : gen A := match l with [] => GStop | a :: t => GCons a (gen_of t) end.
Fixpoint gapp {A} (g h : gen A) : gen A :=
  match g with GStop => h | GRaise e => GRaise e | GCons a t => GCons a (gapp t h) end.
Fixpoint gmap {A B} (f : A -> B) (g : gen A) : gen B :=
  match g with GStop => GStop | GRaise e => GRaise e | GCons a t => GCons (f a) (gmap f t) end.
(** Applying a function that may raise to every item. *)
Fixpoint gmapM {A B} (f : A -> res B) (g : gen A) : gen B :=
  match g with
  | GStop => GStop
  | GRaise e => GRaise e
  | GCons a t => match f a with Ok b => GCons b (gmapM f t) | Err e => GRaise e end
  end.
(** Errors before the generator exists. *)
Definition gres {A} (r : res (gen A)) : gen A := match r with Ok g => g | Err e => GRaise e end.

(** itertools.chain.from_iterable (stream_dataset.py 225). *)
Definition chain_gen {A} (gs : list (gen A)) : gen A := fold_right gapp GStop gs.

(** zip of several generators (245, 489): in every round the generators are asked in order; the first that is exhausted ends it. *)
Fixpoint zip2 {A} (g : gen A) (r : gen (list A)) : gen (list A) :=
  match g with
  | GStop => GStop
  | GRaise e => GRaise e
  | GCons a t => match r with GStop => GStop | GRaise e => GRaise e | GCons l r' => GCons (a :: l) (zip2 t r') end
  end.
Fixpoint zip_gens {A} (gs : list (gen A)) : gen (list A) :=
  match gs with
  | [] => GStop
  | [g] => gmap (fun a => [a]) g
  | g :: t => zip2 g (zip_gens t)
  end.

(** itertools.zip_longest of several generators (248, 493); exhausted generators give None, the end comes when all are exhausted. [n] is
    the number of the remaining generators. *)
Fixpoint zip_longest2 {A} (n : nat) (g : gen A) (r : gen (list (option A))) : gen (list (option A)) :=
  match g with
  | GStop => gmap (fun l => None :: l) r
  | GRaise e => GRaise e
  | GCons a t => match r with
                 | GStop => GCons (Some a :: repeat None n) (zip_longest2 n t GStop)
                 | GRaise e => GRaise e
                 | GCons l r' => GCons (Some a :: l) (zip_longest2 n t r')
                 end
  end.
Fixpoint zip_longest {A} (gs : list (gen A)) : gen (list (option A)) :=
  match gs with
  | [] => GStop
  | g :: t => zip_longest2 (length t) g (zip_longest t)
  end.
(** filter(lambda x: x is not None, ...) (249, 494). *)
Fixpoint somes {A} (l : list (option A)) : list A :=
  match l with [] => [] | Some a :: t => a :: somes t | None :: t => somes t end.

(** round(p / q), half to even; ZeroDivisionError for q = 0 (206, 287). *)
Definition py_round (p q : Z) : res Z :=
  if q =? 0 then Err ZeroDivisionError
  else
    let p := if q <? 0 then - p else p in
    let q := Z.abs q in
    let f := p / q in
    let r := p mod q in
    Ok (if 2 * r <? q then f else if q <? 2 * r then f + 1 else if Z.even f then f else f + 1).

(* ---------- partition_by_sum ---------- *)

Fixpoint upd {A} (l : list A) (n : nat) (f : A -> A) : list A :=
  match l, n with
  | [], _ => []
  | a :: t, O => f a :: t
  | a :: t, S n' => a :: upd t n' f
  end.

(** sums.index(min(sums)): first position of the smallest; ValueError if there is none (56). *)
Fixpoint index_of (x : Z) (l : list Z) : nat :=
  match l with [] => O | a :: t => if a =? x then O else S (index_of x t) end.
Definition min_index (sums : list Z) : res nat :=
  match zmin sums with Ok m => Ok (index_of m sums) | Err _ => Err ValueError end.

(** stream_dataset.py 55-59. *)
Fixpoint partition_loop (values : list Z) (order : list nat) (parts : list (list Z)) (idxs : list (list nat)) (sums : list Z)
  : res (list (list Z) * list (list nat)) :=
  match order with
  | [] => Ok (parts, idxs)
  | i :: t =>
      do k <- min_index sums;
      match nth_error values i with
      | None => Err IndexError
      | Some v => partition_loop values t (upd parts k (fun p => p ++ [v])) (upd idxs k (fun p => p ++ [i]))
                                 (upd sums k (fun s => s + v))
      end
  end.

(** stream_dataset.py 24-61. [sorted] is the outcome of argsort, [shuffled] that of random.shuffle. *)
Definition partition_by_sum (values : list Z) (num_partitions : Z) (shuffle sort : bool) (sorted shuffled : list nat)
  : res (list (list Z) * list (list nat)) :=
  if shuffle && sort then Err ValueError                                        (* 41-42 *)
  else
    let indices := if sort then sorted                                          (* 44-45 *)
                   else if shuffle then shuffled                                (* 49-50 *)
                   else seq 0 (length values) in                                (* 47 *)
    let n := Z.to_nat num_partitions in
    partition_loop values indices (repeat [] n) (repeat [] n) (repeat 0 n).     (* 52-54 *)

Section Data.
Context {V : Type}.

(** data_objects.py 13-25. *)
Record sample : Type := mkSample {
  sdata : list V; ssos : bool; seos : bool; slen : Z; sidx : Z; snum : Z; sid : string
}.

(** What the outside world provides: files, their headers (frames, sample rate), the transform. *)
Record world : Type := mkWorld {
  load : string -> res (list V * Z);
  info : string -> res (Z * Z);
  transform : list V -> list V
}.

(** Attributes of an AudioStreamDataset (147-160). chunk_seconds = dcn / dcd; dmeta maps files to (frames, rate),
    dlens to a duration in seconds (numerator, denominator); later entries of a dict win. *)
Record dataset : Type := mkDataset {
  dfiles : list string; dcn : Z; dcd : Z;
  dmeta : list (string * (Z * Z)); dlens : list (string * (Z * Z));
  dbatch : option Z; dshuffle : bool; ddrop : bool
}.

Fixpoint lookup {A} (k : string) (l : list (string * A)) : option A :=
  match l with
  | [] => None
  | (j, a) :: t => match lookup k t with Some b => Some b | None => if String.eqb j k then Some a else None end
  end.

(** stream_dataset.py 147-160, 168-171, 173-175 (__init__, batch_size.setter, get_file_metadata). *)
Definition new_dataset (w : world) (files : list string) (cn cd : Z) (file_lengths : option (list (Z * Z)))
    (file_metadata : list (string * (Z * Z))) (batch_size : option Z) (shuffle drop_last : bool) : res dataset :=
  if match batch_size with Some b => b <=? 0 | None => false end then Err AssertionError      (* 170 *)
  else match file_lengths with
       | None =>
           do md <- (if Nat.eqb (length file_metadata) 0                                      (* 156 *)
                     then mapM (fun f => do i <- info w f; Ok (f, i)) files
                     else Ok file_metadata);
           do ls <- mapM (fun fm => if snd (snd fm) =? 0 then Err ZeroDivisionError else Ok fm) md;   (* 157 *)
           Ok (mkDataset files cn cd md ls batch_size shuffle drop_last)
       | Some ls => Ok (mkDataset files cn cd [] (zip files ls) batch_size shuffle drop_last) (* 159-160 *)
       end.

(** stream_dataset.py 197-207: the chunk size in frames of the transformed audio. num_frames / L is the stride; L = 0 and a stride of 0 raise
    ZeroDivisionError. *)
Definition chunk_size (cn cd rate num_frames L : Z) : res Z :=
  if L =? 0 then Err ZeroDivisionError
  else py_round (cn * rate * L) (cd * num_frames).

(** stream_dataset.py 193-221 (process_data). Every sample carries the whole audio (211). *)
Definition process_data (w : world) (d : dataset) (file : string) : gen sample :=
  gres (do '(raw, rate) <- load w file;                                         (* 197 *)
        let audio := transform w raw in                                         (* 201-202 *)
        do c <- chunk_size (dcn d) (dcd d) rate (zlen raw) (zlen audio);        (* 205-206 *)
        if c =? 0 then Err ValueError                                           (* 207: range() step 0 *)
        else
          let chunks := map (fun i => firstn (Z.to_nat c) (skipn (Z.to_nat i) audio)) (py_range 0 (zlen audio) c) in
          Ok (gen_of (map (fun p => mkSample audio (fst p =? 0) (fst p =? zlen chunks - 1) (zlen (snd p)) (fst p) (zlen chunks) file)
                          (zip (map Z.of_nat (seq 0 (length chunks))) chunks)))). (* 209-221 *)

(** stream_dataset.py 223-225. *)
Definition get_stream (w : world) (d : dataset) (files : list string) : gen sample :=
  chain_gen (map (process_data w d) files).

(** stream_dataset.py 178-191 (force_is_last_on_last_batch): next() on an exhausted generator inside a generator gives RuntimeError. *)
Definition with_eos (s : sample) : sample := mkSample (sdata s) (ssos s) true (slen s) (sidx s) (snum s) (sid s).
Fixpoint force_rest (to_yield : list sample) (g : gen (list sample)) : gen (list sample) :=
  match g with
  | GStop => GCons (map with_eos to_yield) GStop                                (* 188-191 *)
  | GRaise e => GRaise e
  | GCons v t => GCons to_yield (force_rest v t)                                (* 183-185 *)
  end.
Definition force_is_last (g : gen (list sample)) : gen (list sample) :=
  match g with
  | GStop => GRaise RuntimeError                                                (* 182 *)
  | GRaise e => GRaise e
  | GCons b t => force_rest b t
  end.

(** stream_dataset.py 162-166 (batch_size). *)
Definition batch_size_of (d : dataset) : res Z := match dbatch d with Some b => Ok b | None => Err AttributeError end.

(** stream_dataset.py 227-254 (get_streams, __iter__). [shuffled] is the outcome of random.sample. *)
Definition get_streams (w : world) (d : dataset) (shuffled : list string) : gen (list sample) :=
  gres (let files := if dshuffle d then shuffled else dfiles d in               (* 237-240 *)
        do bs <- batch_size_of d;
        do lists <- mapM (fun i => list_slice files (mkSlice (Some i) None (Some bs))) (py_range 0 bs 1);
        let streams := map (get_stream w d) lists in                            (* 243 *)
        Ok (if ddrop d then force_is_last (zip_gens streams)                    (* 244-246 *)
            else gmap somes (zip_longest streams))).                            (* 247-249 *)

(** sorted(batch, key=length, reverse=True) (259): stable, longest first. *)
Fixpoint insert_desc (s : sample) (l : list sample) : list sample :=
  match l with
  | [] => [s]
  | x :: t => if slen x <? slen s then s :: l else x :: insert_desc s t
  end.
Definition sort_desc (l : list sample) : list sample := fold_left (fun acc s => insert_desc s acc) l [].

(** stream_dataset.py 64-77 (concatenate_ragged), 256-274 (custom_collate). An empty batch fails at batch[0] (71). The names given to the
    tensor (273) are not modelled. *)
Definition custom_collate (z : V) (b : list sample) : res (batch V) :=
  let b := sort_desc b in
  match b with
  | [] => Err IndexError
  | _ =>
      do '(wd, rows) <- torch_pad_sequence z (map sdata b);                     (* 261-262 *)
      do m <- make_meta (map sid b) (map ssos b) (map seos b) (map slen b) (Some (map sidx b));  (* 265-272 *)
      Ok (mkBatch wd rows m)
  end.

(** stream_dataset.py 276-310 (split). The names attribute is not passed on to the parts (not modelled). [order] is the outcome of argsort in partition_by_sum (288). *)
Definition split (w : world) (d : dataset) (num_workers batch_size : Z) (shuffle drop_last : bool) (order : list nat)
  : res (list dataset) :=
  if num_workers <=? 0 then Err ValueError                                      (* 279-280 *)
  else if negb (batch_size mod num_workers =? 0) then Err ValueError            (* 282-283 *)
  else
    do ls <- mapM (fun f => match lookup f (dlens d) with Some l => Ok l | None => Err KeyError end) (dfiles d);   (* 286 *)
    do ns <- mapM (fun l : Z * Z => py_round (fst l * dcd d) (snd l * dcn d)) ls;                                  (* 287 *)
    do '(_, idxs) <- partition_by_sum ns num_workers false true order [];       (* 288 *)
    do lists <- mapM (mapM (fun i => match nth_error (dfiles d) i with Some f => Ok f | None => Err IndexError end)) idxs;  (* 289 *)
    do mds <- (if Nat.eqb (length (dmeta d)) 0 then Ok (map (fun _ => []) lists)                                  (* 294 *)
               else mapM (mapM (fun f => match lookup f (dmeta d) with Some i => Ok (f, i) | None => Err KeyError end)) lists);
    let per := batch_size / num_workers in                                      (* 296 *)
    mapM (fun p : list string * list (string * (Z * Z)) =>
            new_dataset w (fst p) (dcn d) (dcd d) None (snd p) (Some per) shuffle drop_last) (zip lists mds).     (* 298-309 *)

(* ---------- make_streams_synchronous ---------- *)

(** The dict of deques, in insertion order. *)
Definition buffers_t : Type := list (string * list sample).
Fixpoint bget (b : buffers_t) (i : string) : list sample :=
  match b with [] => [] | (j, q) :: t => if String.eqb j i then q else bget t i end.
(** buffers[i] = q / buffers[i].append(...): a new key goes to the end. *)
Fixpoint bset (b : buffers_t) (i : string) (q : list sample) : buffers_t :=
  match b with
  | [] => [(i, q)]
  | (j, p) :: t => if String.eqb j i then (j, q) :: t else (j, p) :: bset t i q
  end.
Definition bappend (b : buffers_t) (s : sample) : buffers_t := bset b (sid s) (bget b (sid s) ++ [s]).

(** buffers[id] and buffers[id][-1].eos. *)
Fixpoint last_eos (q : list sample) : bool :=
  match q with [] => false | [s] => seos s | _ :: t => last_eos t end.
Definition mem (i : string) (l : list string) : bool := existsb (String.eqb i) l.

(** stream_dataset.py 313-326 (continue_buffering). *)
Definition continue_buffering (is_stream_empty : bool) (active : list string) (b : buffers_t) (batch_size : nat) : bool :=
  if is_stream_empty then false
  else
    let running := zlen active in
    let current := zlen (filter (fun i => last_eos (bget b i)) active) in
    let next := zlen (filter (fun p => negb (mem (fst p) active) && last_eos (snd p)) b) in
    (current <? running) || (next <? Z.of_nat batch_size - running).

(** stream_dataset.py 348-354: the inner loop. Returns the rest of the stream, whether it was found exhausted, and the buffers. *)
Fixpoint fill (stream : gen (list sample)) (active : list string) (b : buffers_t) (batch_size : nat)
  : res (gen (list sample) * bool * buffers_t) :=
  if continue_buffering false active b batch_size then
    match stream with
    | GStop => Ok (GStop, true, b)                                              (* 353-354 *)
    | GRaise e => Err e
    | GCons l t => fill t active (fold_left bappend l b) batch_size             (* 351-352 *)
    end
  else Ok (stream, false, b).

(** stream_dataset.py 357: [buffers[id].popleft() for id in active_ids if buffers[id]]; looking up a missing key of the defaultdict makes an
    empty entry. *)
Fixpoint pop_all (active : list string) (b : buffers_t) : list sample * buffers_t :=
  match active with
  | [] => ([], b)
  | i :: t =>
      match bget b i with
      | [] => pop_all t (bset b i [])
      | s :: q => let '(l, b') := pop_all t (bset b i q) in (s :: l, b')
      end
  end.

Definition head_sos (q : list sample) : bool := match q with [] => false | s :: _ => ssos s end.
Definition is_nil {A} (l : list A) : bool := match l with [] => true | _ => false end.

(** stream_dataset.py 346-375: the outer loop, at most [fuel] rounds; None if that was not enough. *)
Fixpoint sync_loop (fuel : nat) (stream : gen (list sample)) (is_empty : bool) (active : list string) (b : buffers_t)
    (batch_size : nat) : option (gen (list sample)) :=
  match fuel with
  | O => None
  | S fuel' =>
      match (if is_empty then Ok (stream, true, b) else fill stream active b batch_size) with     (* 348-354 *)
      | Err e => Some (GRaise e)
      | Ok (stream1, is_empty1, b1) =>
          let '(l, b2) := pop_all active b1 in                                                    (* 357 *)
          if negb (is_nil l) then
            match sync_loop fuel' stream1 is_empty1 (map sid (filter (fun s => negb (seos s)) l)) b2 batch_size with
            | Some g => Some (GCons l g)                                                          (* 358-360 *)
            | None => None
            end
          else if negb (is_nil active) then Some (GRaise RuntimeError)                            (* 364-365 *)
          else
            let active1 := firstn batch_size (map fst (filter (fun p => head_sos (snd p)) b2)) in (* 367 *)
            let b3 := filter (fun p => negb (is_nil (snd p))) b2 in                               (* 370-372 *)
            if is_empty1 && is_nil active1 then Some GStop                                        (* 374-375 *)
            else sync_loop fuel' stream1 is_empty1 active1 b3 batch_size
      end
  end.

(** stream_dataset.py 329-375 (make_streams_synchronous). next() of an empty stream inside the generator gives RuntimeError (337). *)
Definition make_streams_synchronous (fuel : nat) (stream : gen (list sample)) : option (gen (list sample)) :=
  match stream with
  | GStop => Some (GRaise RuntimeError)
  | GRaise e => Some (GRaise e)
  | GCons l t =>
      sync_loop fuel t false (map sid l) (fold_left (fun b s => bset b (sid s) [s]) l []) (length l)   (* 339-343 *)
  end.

(* ---------- MultiStreamDataLoader ---------- *)

(** stream_dataset.py 419-434: the attributes, for a single dataset (inl) or a list of datasets (inr). *)
Record loader : Type := mkLoader {
  lsource : dataset + list dataset; lbatch : Z; lshuffle : bool; lworkers : Z; loverlap : bool; ldrop : bool
}.
Definition new_loader (source : dataset + list dataset) (batch_size : Z) (shuffle : bool) (num_workers : Z)
    (overlapping drop_last : bool) : res loader :=
  if drop_last && negb overlapping then Err ValueError                          (* 428-429 *)
  else match source with
       | inl _ => Ok (mkLoader source batch_size shuffle num_workers overlapping drop_last)
       | inr l => if 0 <? num_workers then Err ValueError                       (* 432-433 *)
                  else Ok (mkLoader source batch_size shuffle (zlen l) overlapping drop_last)   (* 434 *)
       end.

(** stream_dataset.py 471-477. *)
Definition loader_datasets (w : world) (ld : loader) (order : list nat) : res (list dataset) :=
  match lsource ld with
  | inl d => split w d (Z.max 1 (lworkers ld)) (lbatch ld) (lshuffle ld) (ldrop ld) order
  | inr l => Ok l
  end.

(** stream_dataset.py 481-498: the batches of all workers merged. [shuffles] are the outcomes of random.sample in the workers. *)
Definition merged (w : world) (ds : list dataset) (drop_last : bool) (shuffles : list (list string)) : gen (list sample) :=
  let loaders := map (fun p => get_streams w (fst p) (snd p)) (zip ds shuffles) in
  if drop_last then gmap (fun parts => List.concat parts) (zip_gens loaders)                    (* 486-489, 498 *)
  else gmap (fun parts => List.concat (somes parts)) (zip_longest loaders).                     (* 490-498 *)

(** stream_dataset.py 467-502: everything before collation. *)
Definition loader_batches (fuel : nat) (w : world) (ld : loader) (order : list nat) (shuffles : list (list string))
  : option (gen (list sample)) :=
  match loader_datasets w ld order with
  | Err e => Some (GRaise e)
  | Ok ds => let g := merged w ds (ldrop ld) shuffles in
             if loverlap ld then Some g else make_streams_synchronous fuel g                    (* 501-502 *)
  end.

(** stream_dataset.py 504-506, 508-510. Without collate_fn the attribute is None, and calling it raises TypeError (426, 436-440 only set the
    local variable). *)
Definition loader_iter {B} (fuel : nat) (w : world) (ld : loader) (order : list nat) (shuffles : list (list string))
    (collate_fn : option (list sample -> res B)) : option (gen B) :=
  match loader_batches fuel w ld order shuffles with
  | None => None
  | Some g => Some (gmapM (match collate_fn with Some f => f | None => fun _ => Err TypeError end) g)
  end.

End Data.
Arguments sample V : clear implicits.
Arguments world V : clear implicits.
Arguments buffers_t V : clear implicits.

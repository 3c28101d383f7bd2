(** Model of pickling (sending to another process, saving, copy.copy) of the objects of the library:
    StreamTensor.__getstate__ and __setstate__ (dreamstream/tensor.py 767-773), LazyProxy and LazyInit (35-94),
    StreamSample (dreamstream/data/data_objects.py 13-25), OutputCollector (102-106).

    Modelled of Python 3.11's pickle (the version of README.md): an object of a class is saved as the class and the state,
    contents before the object; on loading the class is called through __new__ without arguments and the state is given to
    __setstate__ if getattr finds it, else to the attribute dictionary.
    Modelled of torch: Tensor.__reduce_ex__ (refuses tensors with names, also in torch.multiprocessing), which reaches
    StreamTensor.__torch_function__ (775-836) as a function without a rule of its own, and Tensor.__torch_function__, which
    turns every tensor in a result, at any depth of tuples and lists, into a StreamTensor.
    Not modelled: sharing between the parts of a value (pickle's memo), the byte format, warnings. *)

From Coq Require Import String List ZArith Bool Lia.
From Verif Require Import Py Meta Named.
Import ListNotations.
Open Scope list_scope.

Section Pickle.
Context {V : Type}.

(** Values. *)
Inductive pyv : Type :=
| Atom (a : string)                                                      (* None, numbers, strings, classes: saved by value or by name *)
| PSeq (tuple : bool) (l : list pyv)                                     (* a tuple, or a list *)
| Plain (t : @tensor V) (names : list dname)                             (* a torch.Tensor *)
| Stream (t : @tensor V) (names : list dname) (meta : option pyv)        (* a StreamTensor; None: the attribute meta was never assigned *)
| Proxy (args : pyv) (obj : option pyv)                                  (* a LazyProxy, tensor.py 38-42: _args with _kwargs, _obj *)
| MetaObj (slots : list (string * pyv))                                  (* a StreamMetadata, tensor.py 97-117 *)
| Obj (cls : string) (fields : list (string * pyv)) (entries : list (string * pyv)).
                                                                         (* an object of another class; a dict has entries *)

(** What is saved. *)
Inductive pk : Type :=
| KAtom (a : string)
| KSeq (tuple : bool) (l : list pk)
| KTensor (t : @tensor V)                                                (* torch._utils._rebuild_tensor_v2 *)
| KFromType (t : @tensor V) (state : pk)                                 (* torch._tensor._rebuild_from_type_v2 with StreamTensor *)
| KProxy (args : pk) (obj : option pk)                                   (* copyreg.__newobj__(LazyProxy) and state *)
| KMeta (slots : list (string * pk))                                     (* copyreg.__newobj__(StreamMetadata) and state *)
| KObj (cls : string) (fields : list (string * pk)) (entries : list (string * pk)).

(** tensor.has_names(). *)
Definition has_names (l : list dname) : bool := existsb (fun n => match n with Some _ => true | None => false end) l.

(** tensor.py 767-769, 910-914: __getstate__ decouples: the data without names, the metadata, the names. Reading an attribute that was
    never assigned raises AttributeError. *)
Definition names_value (l : list dname) : pyv :=
  PSeq true (map (fun n => match n with Some s => Atom s | None => Atom "None"%string end) l).
Definition getstate (t : @tensor V) (names : list dname) (meta : option pyv) : res (pyv * pyv * pyv) :=
  match meta with
  | None => Err AttributeError
  | Some m => Ok (Plain t (repeat None (ndim t)), m, names_value names)
  end.

(** tensor.py 771-773: __setstate__ calls __init__, which assigns the metadata (762-765); data and names stay as they are. *)
Definition setstate (t : @tensor V) (names : list dname) (state : pyv * pyv * pyv) : pyv :=
  let '(_, m, _) := state in Stream t names (Some m).

(** torch._tensor.Tensor.__reduce_ex__ on a StreamTensor: the state, then the refusal of names. The result went through
    Tensor.__torch_function__, so that the tensor in the state is a StreamTensor without metadata. *)
Definition reduce_stream (t : @tensor V) (names : list dname) (meta : option pyv) : res (pyv * pyv * pyv) :=
  do '(d, m, n) <- getstate t names meta;
  if has_names names then Err RuntimeError
  else Ok (match d with Plain t' n' => Stream t' n' None | _ => d end, m, n).

(** Saving the tensor in the state: __reduce_ex__ of a StreamTensor without metadata, which reads them. (The last line stands for a
    tensor of the state that has metadata or is no StreamTensor; [reduce_stream] gives no such state.) *)
Definition save_bare (d : pyv) : res pk :=
  match d with
  | Stream t n None => do _ <- getstate t n None; Ok (KTensor t)
  | _ => Err Undefined
  end.

(** pickle.dumps. *)
Fixpoint dumps (v : pyv) : res pk :=
  let fields := fix go (l : list (string * pyv)) : res (list (string * pk)) :=
    match l with [] => Ok [] | (s, x) :: t => do k <- dumps x; do r <- go t; Ok ((s, k) :: r) end in
  match v with
  | Atom a => Ok (KAtom a)
  | PSeq b l => do ks <- (fix go (l : list pyv) : res (list pk) :=
                            match l with [] => Ok [] | x :: t => do k <- dumps x; do r <- go t; Ok (k :: r) end) l;
                Ok (KSeq b ks)
  | Plain t n => if has_names n then Err RuntimeError else Ok (KTensor t)
  | Stream t n m =>
      do '(d, _, _) <- reduce_stream t n m;
      do kd <- save_bare d;
      match m with
      | None => Err AttributeError
      | Some m' => do km <- dumps m'; Ok (KFromType t (KSeq true [kd; km; KSeq true (map (fun _ => KAtom "None") n)]))
      end
  | Proxy a o =>
      do ka <- dumps a;
      match o with
      | None => Ok (KProxy ka None)
      | Some o' => do ko <- dumps o'; Ok (KProxy ka (Some ko))
      end
  | MetaObj sl => do ks <- fields sl; Ok (KMeta ks)
  | Obj c fs es => do ke <- fields es; do kf <- fields fs; Ok (KObj c kf ke)
  end.

(** pickle.loads. A LazyProxy made by __new__ alone has no attribute _obj, and looking for __setstate__ on it raises KeyError (tensor.py
    44-46). StreamMetadata.__new__ gives a LazyProxy without arguments (93-94); looking for __setstate__ on it calls __init__ without
    arguments (46, 85-87), TypeError. *)
Fixpoint loads (k : pk) : res pyv :=
  let fields := fix go (l : list (string * pk)) : res (list (string * pyv)) :=
    match l with [] => Ok [] | (s, x) :: t => do v <- loads x; do r <- go t; Ok ((s, v) :: r) end in
  match k with
  | KAtom a => Ok (Atom a)
  | KSeq b l => do vs <- (fix go (l : list pk) : res (list pyv) :=
                            match l with [] => Ok [] | x :: t => do v <- loads x; do r <- go t; Ok (v :: r) end) l;
                Ok (PSeq b vs)
  | KTensor t => Ok (Plain t (repeat None (ndim t)))
  | KFromType t st =>
      do s <- loads st;
      match s with
      | PSeq true [d; m; n] => Ok (setstate t (repeat None (ndim t)) (d, m, n))
      | _ => Err TypeError
      end
  | KProxy a o =>
      do _ <- loads a;
      match o with
      | None => Err KeyError
      | Some o' => do _ <- loads o'; Err KeyError
      end
  | KMeta sl => do _ <- fields sl; Err TypeError
  | KObj c fs es => do ve <- fields es; do vf <- fields fs; Ok (Obj c vf ve)
  end.

(** What arrives in another process. *)
Definition transport (v : pyv) : res pyv := do k <- dumps v; loads k.

(** copy.copy of a StreamTensor, which has no __copy__: __reduce_ex__ and reconstruction at once, nothing is saved. *)
Definition copy_stream (t : @tensor V) (names : list dname) (meta : option pyv) : res pyv :=
  do st <- reduce_stream t names meta; Ok (setstate t (repeat None (ndim t)) st).

(** data_objects.py 13-25: a StreamSample whose data are a plain tensor without names. [file] and [metadata] are what the program put
    there. *)
Definition sample_value (data : @tensor V) (sos eos len idx num id : string) (file metadata : pyv) : pyv :=
  Obj "StreamSample"
      [("data", Plain data (repeat None (ndim data))); ("sos", Atom sos); ("eos", Atom eos); ("length", Atom len);
       ("chunk_index", Atom idx); ("num_chunks", Atom num); ("id", Atom id); ("file", file); ("file_metadata", metadata)]%string [].

(** data_objects.py 102-106: an OutputCollector is a dict from ids to StreamTensors with the set of ids that ended. *)
Definition collector_value (entries : list (string * pyv)) (closed : list string) : pyv :=
  Obj "OutputCollector" [("closed_entries"%string, Obj "set" [] (map (fun s => (s, Atom s)) closed))] entries.

End Pickle.
Arguments pyv V : clear implicits.
Arguments pk V : clear implicits.

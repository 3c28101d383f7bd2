(** Making StreamTensors from data, metadata and names and taking them apart (dreamstream/tensor.py 880-885, 910-950), and the
    overrides that return plain tensors or pairs (dreamstream/overrides.py 166-190, 725-733).

    Simplifications: dtypes, devices, gradients, memory (views or copies) and warnings are not modelled; names given as "..." are
    not modelled; nested lists of numbers are given as the tensor that torch makes of them. *)

From Coq Require Import String List ZArith Bool.
From Verif Require Import Py Meta Named Gather FullIndex Dispatch.
Import ListNotations.
Open Scope Z_scope.

(** t.refine_names(names) on a tensor with names [old]: an unnamed dimension may get any name, a named one only its own
    (RuntimeError otherwise). *)
Fixpoint refines (old new : list dname) : bool :=
  match old, new with
  | [], [] => true
  | None :: o, _ :: n => refines o n
  | Some a :: o, Some b :: n => String.eqb a b && refines o n
  | _, _ => false
  end.
Definition torch_refine (old new : list dname) : res (list dname) :=
  if refines old new && negb (names_dup new) then Ok new else Err RuntimeError.

(** t.rename_(names): a single None unnames all dimensions whatever their number. *)
Definition torch_rename (nd : nat) (l : list dname) : res (list dname) :=
  match l with [None] => Ok (repeat None nd) | _ => refine_names nd l end.

Section Build.
Context {V : Type}.

(** The argument `data`: a nested list or array, a torch.Tensor or a StreamTensor. *)
Inductive bdata : Type :=
| BNested (t : @tensor V)
| BTensor (t : @tensor V) (n : list dname)
| BStream (x : @stensor V).
Definition data_of (d : bdata) : @tensor V :=
  match d with BNested t | BTensor t _ => t | BStream x => tn x end.
Definition names_of (d : bdata) : list dname :=
  match d with BNested t => repeat None (ndim t) | BTensor _ n => n | BStream x => names x end.

(** tensor.py 916-929 (as_stream_tensor). *)
Definition as_stream_tensor (d : bdata) (m : option meta) (nms : option (list dname)) : res (@stensor V) :=
  do n <- match nms with None => Ok (names_of d) | Some l => torch_refine (names_of d) l end;
  do m' <- match m, d with
           | Some m', _ => Ok m'
           | None, BStream x => Ok (smeta x)
           | None, _ => Err AttributeError                     (* 928: a plain tensor has no meta *)
           end;
  Ok (mkSt (data_of d) n m').

(** tensor.py 932-950 (stream_tensor): torch.tensor with names, and when that fails without names followed by rename_. *)
Definition stream_tensor (d : bdata) (m : meta) (nms : list dname) : res (@stensor V) :=
  do n <- match refine_names (ndim (data_of d)) nms with
          | Ok n => Ok n
          | Err _ => torch_rename (ndim (data_of d)) nms
          end;
  Ok (mkSt (data_of d) n m).

(** tensor.py 880-885 (tensor) and 910-913 (decouple). *)
Definition plain_of (keep_names : bool) (x : @stensor V) : @tensor V * list dname :=
  (tn x, if keep_names then names x else repeat None (ndim (tn x))).
Definition st_decouple (keep_names : bool) (x : @stensor V) : (@tensor V * list dname) * meta * list dname :=
  (plain_of keep_names x, smeta x, names x).

(** overrides.py 184-190 (frexp); [man] and [ex] are torch's mantissa and exponent of a value. *)
Definition frexp (man ex : V -> V) (x : @stensor V) : res (@stensor V * @stensor V) :=
  do n1 <- torch_rename (ndim (tn x)) (names x);
  do n2 <- torch_rename (ndim (tn x)) (names x);
  Ok (mkSt (mkTn (shp (tn x)) (fun ix => man (at_ (tn x) ix))) n1 (smeta x),
      mkSt (mkTn (shp (tn x)) (fun ix => ex (at_ (tn x) ix))) n2 (smeta x)).

(** The quantising overrides, overrides.py 166-181: one StreamTensor, or a tuple. [q] is torch's function on plain tensors. *)
Inductive qinput : Type :=
| QOne (x : @stensor V)
| QMany (l : list (@operand V)).
Definition quantize (q : list (@tensor V) -> res (@rout V)) (i : qinput) : res (@out V) :=
  do ts <- match i with
           | QOne x => Ok [tn x]
           | QMany l => mapM (fun o => match o with OStream x => Ok (tn x) | OPlain _ => Err AttributeError end) l   (* 168: t.tensor() *)
           end;
  do r <- q ts; Ok (as_plain r).

(** Elements read with broadcasting. *)
Definition bread {A} (r : nat) (t : @tensor A) (p : list Z) : A := at_ t (skipn (r - ndim t) (bcast_ix (lpad r (shp t)) p)).

(** torch.masked_select on plain tensors: the values where the mask is set, in row-major order of the broadcast shape. *)
Definition torch_masked_select (t : @tensor V) (m : @tensor bool) : res (list V) :=
  let r := Nat.max (ndim t) (ndim m) in
  do s <- bcast_sizes (lpad r (shp t)) (lpad r (shp m));
  Ok (map (bread r t) (filter (bread r m) (all_positions s))).

(** overrides.py 725-733 (masked_select): a plain tensor. With a StreamTensor as mask the inner call leads back to this override,
    with a plain tensor as input, which has no method decouple. [ms]: the mask is a StreamTensor. *)
Definition masked_select (x : @operand V) (m : @tensor bool) (ms : bool) : res (list V) :=
  match x with
  | OPlain _ => Err AttributeError
  | OStream x => if ms then Err AttributeError else torch_masked_select (tn x) m
  end.

(** x.masked_select(mask), not registered, and therefore left to the default rule (tensor.py 814). *)
Definition method_masked_select (x : @stensor V) (m : @tensor bool) : res (@out V) :=
  torch_function (fun _ _ _ => Err Undefined) "Tensor.masked_select"
    (fun args _ => match args with
                   | [RT t _] => do l <- torch_masked_select t m;
                                 match l with
                                 | [] => Ok (RTen (mkTn [0] (at_ t)) [None])
                                 | v0 :: _ => Ok (RTen (mkTn [zlen l] (fun ix => nth (Z.to_nat (hd 0 ix)) l v0)) [None])
                                 end
                   | _ => Err TypeError
                   end) [AStream x] [].

End Build.

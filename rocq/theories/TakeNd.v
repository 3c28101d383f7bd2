(** Model of take with an index tensor of any rank (dreamstream/overrides.py 664-697); Gather.v has the one-dimensional case.

    The index is given by its sizes [s] and its elements [l] in row-major order.  torch.take gives a tensor of the sizes of
    the index.  np.unravel_index gives, per dimension of the operand, an array of the sizes of the index: iterating it in
    dict.fromkeys (671) fails with TypeError for a number (rank 0) and for rows (rank 2 or more), which are not hashable; an
    array without rows has no keys.  The rename (692) has one name for a tensor of two or more dimensions. *)

From Coq Require Import String List ZArith Bool Lia.
From Verif Require Import Py Meta Named Gather.
Import ListNotations.
Open Scope Z_scope.

Section TakeNd.
Context {V : Type}.

Definition take_nd (x : @stensor V) (s l : list Z) : res (@stensor V) :=
  match s with
  | [_] => take x l
  | _ =>
      do _ <- torch_take (tn x) l;                                             (* 668 *)
      do subs <- np_unravel (shp (tn x)) l;                                    (* 671 *)
      let fails := match s with [] => true | n :: _ => 0 <? n end in
      if match subs with [] => false | _ => fails end then Err TypeError       (* 672 *)
      else
        do '(_, nn) <- take_dim (names x) BATCH (tn x) (map (fun _ => []) subs) (names x);
        do '(_, nn) <- take_dim (names x) LENGTH (tn x) (map (fun _ => []) subs) nn;
        do _ <- join_dim_names nn;
        Err RuntimeError                                                       (* 692 *)
  end.
End TakeNd.

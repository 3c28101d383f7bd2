(** The cases of the repository's own tests of StreamTensor (tests/test_tensor.py), run on the model.

    These are tests of the model and no proofs: the repository's authors state what the code does on the inputs below, and the
    model does the same.  The values that the tests obtain by applying torch to the plain data were computed apart, with
    nested lists.  A StreamTensor is shown with its sizes, its values in row-major order, its names and its metadata, a plain
    tensor with its sizes and values. *)

From Coq Require Import String List ZArith Bool.
From Verif Require Import Py Meta Named Gather FullIndex Dispatch Build.
Import ListNotations.
Open Scope string_scope.
Open Scope list_scope.
Open Scope Z_scope.

(** A tensor from sizes and values. *)
Definition table_of {A} (a0 : A) (s : list Z) (l : list A) : @tensor A :=
  mkTn s (fun p => nth (Z.to_nat (fold_left (fun acc q => acc * fst q + snd q) (zip s p) 0)) l a0).
Definition table := table_of 0.
Definition btable := table_of false.

Definition view : Type := (list Z * list Z * option (list dname * list string * list bool * list bool * list Z))%type.
Definition seen (s v : list Z) (o : option (list dname * list string * list bool * list bool * list Z)) : view := (s, v, o).
Definition values (t : @tensor Z) : list Z := map (at_ t) (all_positions (shp t)).
Definition view_of (x : @stensor Z) : view :=
  (shp (tn x), values (tn x), Some (names x, ids (smeta x), sos (smeta x), eos (smeta x), lens (smeta x))).
Definition see (r : res (@stensor Z)) : res view := do x <- r; Ok (view_of x).
Definition look (r : res (@operand Z)) : res view :=
  do o <- r; Ok match o with OStream x => view_of x | OPlain t => (shp t, values t, None) end.
Definition look_sum (r : res (@tensor Z + @stensor Z)) : res view :=
  do o <- r; Ok match o with inr x => view_of x | inl t => (shp t, values t, None) end.

(** tests/test_tensor.py 22-68. *)
Definition the_meta : meta := mkMeta ["first"; "middle"; "last"] [true; false; false] [false; false; true] [3; 3; 2] None.
Definition data3 : list Z := [1; 2; 3; 4; 5; 6; 7; 8; 9; 10; 11; 12; 13; 14; 15; 16; 17; 18].
Definition bfl : @stensor Z := mkSt (table [3; 2; 3] data3) [Some BATCH; Some "F"; Some LENGTH] the_meta.
Definition lbf : @stensor Z := mkSt (table [3; 3; 2] [1; 4; 7; 10; 13; 16; 2; 5; 8; 11; 14; 17; 3; 6; 9; 12; 15; 18]) [Some LENGTH; Some BATCH; Some "F"] the_meta.
Definition blf : @stensor Z := mkSt (table [3; 3; 2] [1; 4; 2; 5; 3; 6; 7; 10; 8; 11; 9; 12; 13; 16; 14; 17; 15; 18]) [Some LENGTH; Some BATCH; Some "F"] the_meta.
Definition bfld : @stensor Z := mkSt (table [3; 2; 2; 3] [1; 2; 3; 1; 2; 3; 4; 5; 6; 4; 5; 6; 7; 8; 9; 7; 8; 9; 10; 11; 12; 10; 11; 12; 13; 14; 15; 13; 14; 15; 16; 17; 18; 16; 17; 18]) [Some BATCH; Some "F"; Some "D"; Some LENGTH] the_meta.

(** tests/test_tensor.py 108-118 (data as list, tensor, tensor with names). *)
Example instantiate_1 :
  see (stream_tensor (BNested (table [2; 3] [1; 2; 3; 4; 5; 6])) (mkMeta ["a"; "b"] [true; false] [false; true] [3; 3] None) [Some BATCH; Some LENGTH])
  = Ok (seen [2; 3] [1; 2; 3; 4; 5; 6]
          (Some ([Some BATCH; Some LENGTH], ["a"; "b"], [true; false], [false; true], [3; 3]))).
Proof. vm_compute. reflexivity. Qed.
Example instantiate_2 :
  see (stream_tensor (BTensor (table [2; 3] [1; 2; 3; 4; 5; 6]) [None; None]) (mkMeta ["a"; "b"] [true; false] [false; true] [3; 3] None) [Some BATCH; Some LENGTH])
  = Ok (seen [2; 3] [1; 2; 3; 4; 5; 6]
          (Some ([Some BATCH; Some LENGTH], ["a"; "b"], [true; false], [false; true], [3; 3]))).
Proof. vm_compute. reflexivity. Qed.
Example instantiate_3 :
  see (stream_tensor (BTensor (table [2; 3] [1; 2; 3; 4; 5; 6]) [Some "dim1"; Some "dim2"]) (mkMeta ["a"; "b"] [true; false] [false; true] [3; 3] None) [Some BATCH; Some LENGTH])
  = Ok (seen [2; 3] [1; 2; 3; 4; 5; 6]
          (Some ([Some BATCH; Some LENGTH], ["a"; "b"], [true; false], [false; true], [3; 3]))).
Proof. vm_compute. reflexivity. Qed.

(** tests/test_tensor.py 294-330 (narrow). *)
Example narrow_1 :
  see (narrow bfl 0 1 2)
  = Ok (seen [2; 2; 3] [7; 8; 9; 10; 11; 12; 13; 14; 15; 16; 17; 18]
          (Some ([Some BATCH; Some "F"; Some LENGTH], ["middle"; "last"], [false; false], [false; true], [3; 2]))).
Proof. vm_compute. reflexivity. Qed.
Example narrow_2 :
  see (narrow bfl 1 1 1)
  = Ok (seen [3; 1; 3] [4; 5; 6; 10; 11; 12; 16; 17; 18]
          (Some ([Some BATCH; Some "F"; Some LENGTH], ["first"; "middle"; "last"], [true; false; false], [false; false; true], [3; 3; 2]))).
Proof. vm_compute. reflexivity. Qed.
Example narrow_3 :
  see (narrow bfl 2 1 2)
  = Ok (seen [3; 2; 2] [2; 3; 5; 6; 8; 9; 11; 12; 14; 15; 17; 18]
          (Some ([Some BATCH; Some "F"; Some LENGTH], ["first"; "middle"; "last"], [false; false; false], [false; false; true], [2; 2; 1]))).
Proof. vm_compute. reflexivity. Qed.

(** tests/test_tensor.py 333-418 (gather, take_along_dim). *)
Definition full_index := (table [3; 2; 3] [1; 0; 1; 0; 1; 1; 0; 1; 1; 1; 0; 1; 1; 0; 1; 0; 1; 1]).
Definition truncated_index := (table [2; 2; 2] [1; 0; 0; 1; 0; 1; 1; 0]).
Example gather_1 :
  see (gather bfl 0 (mkIx full_index false))
  = Err IndexError.
Proof. vm_compute. reflexivity. Qed.
Example gather_2 :
  see (gather bfl 1 (mkIx full_index false))
  = Ok (seen [3; 2; 3] [4; 2; 6; 1; 5; 6; 7; 11; 12; 10; 8; 12; 16; 14; 18; 13; 17; 18]
          (Some ([Some BATCH; Some "F"; Some LENGTH], ["first"; "middle"; "last"], [true; false; false], [false; false; true], [3; 3; 2]))).
Proof. vm_compute. reflexivity. Qed.
Example gather_3 :
  see (gather bfl 1 (mkIx truncated_index false))
  = Ok (seen [2; 2; 2] [4; 2; 1; 5; 7; 11; 10; 8]
          (Some ([Some BATCH; Some "F"; Some LENGTH], ["first"; "middle"], [true; false], [false; false], [2; 2]))).
Proof. vm_compute. reflexivity. Qed.
Example gather_4 :
  see (gather bfl 2 (mkIx full_index false))
  = Err IndexError.
Proof. vm_compute. reflexivity. Qed.
Example take_along_dim_1 :
  see (take_along_dim bfl 0 (mkIx full_index false))
  = Err IndexError.
Proof. vm_compute. reflexivity. Qed.
Example take_along_dim_2 :
  see (take_along_dim bfl 1 (mkIx full_index false))
  = Ok (seen [3; 2; 3] [4; 2; 6; 1; 5; 6; 7; 11; 12; 10; 8; 12; 16; 14; 18; 13; 17; 18]
          (Some ([Some BATCH; Some "F"; Some LENGTH], ["first"; "middle"; "last"], [true; false; false], [false; false; true], [3; 3; 2]))).
Proof. vm_compute. reflexivity. Qed.
Example take_along_dim_3 :
  see (take_along_dim bfl 1 (mkIx truncated_index false))
  = Err RuntimeError.
Proof. vm_compute. reflexivity. Qed.
Example take_along_dim_4 :
  see (take_along_dim bfl 2 (mkIx full_index false))
  = Err IndexError.
Proof. vm_compute. reflexivity. Qed.

(** tests/test_tensor.py 421-451 (select). *)
Example select_1 :
  see (select bfl 0 (IInt 1))
  = Ok (seen [2; 3] [7; 8; 9; 10; 11; 12]
          (Some ([Some "F"; Some LENGTH], ["middle"], [false], [false], [3]))).
Proof. vm_compute. reflexivity. Qed.
Example select_2 :
  see (select bfl 1 (IInt 1))
  = Ok (seen [3; 3] [4; 5; 6; 10; 11; 12; 16; 17; 18]
          (Some ([Some BATCH; Some LENGTH], ["first"; "middle"; "last"], [true; false; false], [false; false; true], [3; 3; 2]))).
Proof. vm_compute. reflexivity. Qed.
Example select_3 :
  see (select bfl 2 (IInt 1))
  = Ok (seen [3; 2] [2; 5; 8; 11; 14; 17]
          (Some ([Some BATCH; Some "F"], ["first"; "middle"; "last"], [false; false; false], [false; false; true], [1; 1; 1]))).
Proof. vm_compute. reflexivity. Qed.

(** tests/test_tensor.py 454-523 (take). *)
Example take_1 :
  see (take bfl [0; 1; 2; 3; 4; 5])
  = Ok (seen [6] [1; 2; 3; 4; 5; 6]
          (Some ([Some "F_L"], ["first"], [true], [false], [3]))).
Proof. vm_compute. reflexivity. Qed.
Example take_2 :
  see (take bfl [1; 2; 4; 5])
  = Ok (seen [4] [2; 3; 5; 6]
          (Some ([Some "F_L"], ["first"], [false], [false], [2]))).
Proof. vm_compute. reflexivity. Qed.
Example take_3 :
  see (take bfl [0; 1; 2; 6; 7; 8; 12; 13; 14])
  = Ok (seen [9] [1; 2; 3; 7; 8; 9; 13; 14; 15]
          (Some ([Some "B_F_L"], ["first"; "middle"; "last"], [true; false; false], [false; false; true], [3; 3; 2]))).
Proof. vm_compute. reflexivity. Qed.
Example take_4 :
  see (take bfl [0; 3; 6; 9; 12; 15])
  = Ok (seen [6] [1; 4; 7; 10; 13; 16]
          (Some ([Some "B_F"], ["first"; "middle"; "last"], [true; false; false], [false; false; false], [1; 1; 1]))).
Proof. vm_compute. reflexivity. Qed.
Example take_5 :
  see (take bfl [2; 5; 8; 11; 14; 17])
  = Ok (seen [6] [3; 6; 9; 12; 15; 18]
          (Some ([Some "B_F"], ["first"; "middle"; "last"], [false; false; false], [false; false; false], [1; 1; 0]))).
Proof. vm_compute. reflexivity. Qed.
Example take_6 :
  see (take bfl [0; 2; 4; 6; 8; 10; 12; 14; 16])
  = Ok (seen [9] [1; 3; 5; 7; 9; 11; 13; 15; 17]
          (Some ([Some "B_F_L"], ["first"; "middle"; "last"], [true; false; false], [false; false; true], [3; 3; 2]))).
Proof. vm_compute. reflexivity. Qed.

(** tests/test_tensor.py 526-573 (index_select). *)
Example index_select_1 :
  see (index_select bfl 0 (IxVec [0; 2]))
  = Ok (seen [2; 2; 3] [1; 2; 3; 4; 5; 6; 13; 14; 15; 16; 17; 18]
          (Some ([Some BATCH; Some "F"; Some LENGTH], ["first"; "last"], [true; false], [false; true], [3; 2]))).
Proof. vm_compute. reflexivity. Qed.
Example index_select_2 :
  see (index_select bfl 1 (IxVec [0]))
  = Ok (seen [3; 1; 3] [1; 2; 3; 7; 8; 9; 13; 14; 15]
          (Some ([Some BATCH; Some "F"; Some LENGTH], ["first"; "middle"; "last"], [true; false; false], [false; false; true], [3; 3; 2]))).
Proof. vm_compute. reflexivity. Qed.
Example index_select_3 :
  see (index_select bfl 2 (IxVec [0; 2]))
  = Ok (seen [3; 2; 2] [1; 3; 4; 6; 7; 9; 10; 12; 13; 15; 16; 18]
          (Some ([Some BATCH; Some "F"; Some LENGTH], ["first"; "middle"; "last"], [true; false; false], [false; false; true], [2; 2; 1]))).
Proof. vm_compute. reflexivity. Qed.
Example index_select_4 :
  see (index_select bfl 2 (IxVec [2; 0]))
  = Err IndexError.
Proof. vm_compute. reflexivity. Qed.

(** tests/test_tensor.py 576-599 (masked_select: plain tensors). *)
Example masked_select_1 :
  masked_select (OStream bfl) (btable [3; 1; 1] [true; false; true]) false
  = Ok [1; 2; 3; 4; 5; 6; 13; 14; 15; 16; 17; 18].
Proof. vm_compute. reflexivity. Qed.
Example masked_select_2 :
  masked_select (OStream bfl) (btable [1; 2; 1] [true; false]) false
  = Ok [1; 2; 3; 7; 8; 9; 13; 14; 15].
Proof. vm_compute. reflexivity. Qed.
Example masked_select_3 :
  masked_select (OStream bfl) (btable [1; 1; 3] [false; false; true]) false
  = Ok [3; 6; 9; 12; 15; 18].
Proof. vm_compute. reflexivity. Qed.

(** tests/test_tensor.py 606-614. *)
Example feature_integer_1 :
  look (x_getitem bfl (XTuple [Plain (ISlice (mkSlice None None None)); Plain (IInt 0); Plain (ISlice (mkSlice None None None))]))
  = Ok (seen [3; 3] [1; 2; 3; 7; 8; 9; 13; 14; 15]
          (Some ([Some BATCH; Some LENGTH], ["first"; "middle"; "last"], [true; false; false], [false; false; true], [3; 3; 2]))).
Proof. vm_compute. reflexivity. Qed.

(** tests/test_tensor.py 617-626. *)
Example batch_integer_1 :
  look (x_getitem bfl (XSingle (Plain (IInt 0))))
  = Ok (seen [2; 3] [1; 2; 3; 4; 5; 6]
          (Some ([Some "F"; Some LENGTH], ["first"], [true], [false], [3]))).
Proof. vm_compute. reflexivity. Qed.

(** tests/test_tensor.py 629-637. *)
Example batch_slice_1 :
  look (x_getitem bfl (XSingle (Plain (ISlice (mkSlice (Some 1) None None)))))
  = Ok (seen [2; 2; 3] [7; 8; 9; 10; 11; 12; 13; 14; 15; 16; 17; 18]
          (Some ([Some BATCH; Some "F"; Some LENGTH], ["middle"; "last"], [false; false], [false; true], [3; 2]))).
Proof. vm_compute. reflexivity. Qed.

(** tests/test_tensor.py 640-674. *)
Example batch_tuple_1 :
  look (x_getitem bfl (XTuple [Plain (IInt 0)]))
  = Ok (seen [2; 3] [1; 2; 3; 4; 5; 6]
          (Some ([Some "F"; Some LENGTH], ["first"], [true], [false], [3]))).
Proof. vm_compute. reflexivity. Qed.
Example batch_tuple_2 :
  look (x_getitem bfl (XTuple [Plain (IInt 0); Plain (IInt 1)]))
  = Ok (seen [3] [4; 5; 6]
          (Some ([Some LENGTH], ["first"], [true], [false], [3]))).
Proof. vm_compute. reflexivity. Qed.
Example batch_tuple_3 :
  look (x_getitem bfl (XTuple [Plain (IInt 0); Plain (IInt 1); Plain (IInt 2)]))
  = Ok (seen [] [6]
          (Some ([], ["first"], [false], [false], [1]))).
Proof. vm_compute. reflexivity. Qed.
Example batch_tuple_4 :
  look (x_getitem bfl (XTuple [Plain (IInt 0); Plain (IInt 1); Plain (IInt 0)]))
  = Ok (seen [] [4]
          (Some ([], ["first"], [true], [false], [1]))).
Proof. vm_compute. reflexivity. Qed.

(** tests/test_tensor.py 677-716 (lists and tensors on the batch dimension). *)
Example batch_list_1 :
  look (x_getitem bfl (XSingle (Plain (IList [1]))))
  = Ok (seen [1; 2; 3] [7; 8; 9; 10; 11; 12]
          (Some ([Some BATCH; Some "F"; Some LENGTH], ["middle"], [false], [false], [3]))).
Proof. vm_compute. reflexivity. Qed.
Example batch_list_2 :
  look (x_getitem bfl (XSingle (Plain (IList [0; 2]))))
  = Ok (seen [2; 2; 3] [1; 2; 3; 4; 5; 6; 13; 14; 15; 16; 17; 18]
          (Some ([Some BATCH; Some "F"; Some LENGTH], ["first"; "last"], [true; false], [false; true], [3; 2]))).
Proof. vm_compute. reflexivity. Qed.
Example batch_tensor_1 :
  look (x_getitem bfl (XSingle (Plain (IMask [false; true; true]))))
  = Ok (seen [2; 2; 3] [7; 8; 9; 10; 11; 12; 13; 14; 15; 16; 17; 18]
          (Some ([Some BATCH; Some "F"; Some LENGTH], ["middle"; "last"], [false; false], [false; true], [3; 2]))).
Proof. vm_compute. reflexivity. Qed.
Example batch_tensor_2 :
  look (x_getitem bfl (XSingle (XMask (btable [3] [false; true; true]))))
  = Ok (seen [2; 2; 3] [7; 8; 9; 10; 11; 12; 13; 14; 15; 16; 17; 18]
          (Some ([Some BATCH; Some "F"; Some LENGTH], ["middle"; "last"], [false; false], [false; true], [3; 2]))).
Proof. vm_compute. reflexivity. Qed.
Example batch_tensor_3 :
  look (x_getitem bfl (XSingle (Plain (ITen [1; 2]))))
  = Ok (seen [2; 2; 3] [7; 8; 9; 10; 11; 12; 13; 14; 15; 16; 17; 18]
          (Some ([Some BATCH; Some "F"; Some LENGTH], ["middle"; "last"], [false; false], [false; true], [3; 2]))).
Proof. vm_compute. reflexivity. Qed.
Example batch_tensor_4 :
  look (x_getitem bfl (XSingle (XInts (table [2] [1; 2]))))
  = Ok (seen [2; 2; 3] [7; 8; 9; 10; 11; 12; 13; 14; 15; 16; 17; 18]
          (Some ([Some BATCH; Some "F"; Some LENGTH], ["middle"; "last"], [false; false], [false; true], [3; 2]))).
Proof. vm_compute. reflexivity. Qed.

(** tests/test_tensor.py 719-748. *)
Example length_integer_1 :
  look (x_getitem bfl (XTuple [Plain (ISlice (mkSlice None None None)); Plain (ISlice (mkSlice None None None)); Plain (IInt 0)]))
  = Ok (seen [3; 2] [1; 4; 7; 10; 13; 16]
          (Some ([Some BATCH; Some "F"], ["first"; "middle"; "last"], [true; false; false], [false; false; false], [1; 1; 1]))).
Proof. vm_compute. reflexivity. Qed.
Example length_integer_2 :
  look (x_getitem bfl (XTuple [Plain (ISlice (mkSlice None None None)); Plain (ISlice (mkSlice None None None)); Plain (IInt 1)]))
  = Ok (seen [3; 2] [2; 5; 8; 11; 14; 17]
          (Some ([Some BATCH; Some "F"], ["first"; "middle"; "last"], [false; false; false], [false; false; true], [1; 1; 1]))).
Proof. vm_compute. reflexivity. Qed.
Example length_integer_3 :
  look (x_getitem bfl (XTuple [Plain (ISlice (mkSlice None None None)); Plain (ISlice (mkSlice None None None)); Plain (IInt (-1))]))
  = Ok (seen [3; 2] [3; 6; 9; 12; 15; 18]
          (Some ([Some BATCH; Some "F"], ["first"; "middle"; "last"], [false; false; false], [false; false; true], [1; 1; 0]))).
Proof. vm_compute. reflexivity. Qed.

(** tests/test_tensor.py 751-806. *)
Example length_slice_1 :
  look (x_getitem bfl (XTuple [Plain (ISlice (mkSlice None None None)); Plain (ISlice (mkSlice None None None)); Plain (ISlice (mkSlice (Some 1) None None))]))
  = Ok (seen [3; 2; 2] [2; 3; 5; 6; 8; 9; 11; 12; 14; 15; 17; 18]
          (Some ([Some BATCH; Some "F"; Some LENGTH], ["first"; "middle"; "last"], [false; false; false], [false; false; true], [2; 2; 1]))).
Proof. vm_compute. reflexivity. Qed.
Example length_slice_2 :
  look (x_getitem bfl (XTuple [Plain (ISlice (mkSlice None None None)); Plain (ISlice (mkSlice None None None)); Plain (ISlice (mkSlice None (Some (-1)) None))]))
  = Ok (seen [3; 2; 2] [1; 2; 4; 5; 7; 8; 10; 11; 13; 14; 16; 17]
          (Some ([Some BATCH; Some "F"; Some LENGTH], ["first"; "middle"; "last"], [true; false; false], [false; false; true], [2; 2; 2]))).
Proof. vm_compute. reflexivity. Qed.
Example length_slice_3 :
  look (x_getitem bfl (XTuple [Plain (ISlice (mkSlice None None None)); Plain (ISlice (mkSlice None None None)); Plain (ISlice (mkSlice (Some 1) (Some (-1)) None))]))
  = Ok (seen [3; 2; 1] [2; 5; 8; 11; 14; 17]
          (Some ([Some BATCH; Some "F"; Some LENGTH], ["first"; "middle"; "last"], [false; false; false], [false; false; true], [1; 1; 1]))).
Proof. vm_compute. reflexivity. Qed.
Example length_slice_4 :
  look (x_getitem bfl (XTuple [Plain (ISlice (mkSlice None None None)); Plain (ISlice (mkSlice None None None)); Plain (ISlice (mkSlice None (Some (-2)) None))]))
  = Ok (seen [3; 2; 1] [1; 4; 7; 10; 13; 16]
          (Some ([Some BATCH; Some "F"; Some LENGTH], ["first"; "middle"; "last"], [true; false; false], [false; false; false], [1; 1; 1]))).
Proof. vm_compute. reflexivity. Qed.
Example length_slice_5 :
  look (x_getitem bfl (XTuple [Plain (ISlice (mkSlice None None None)); Plain (ISlice (mkSlice None None None)); Plain (ISlice (mkSlice None None (Some 2)))]))
  = Ok (seen [3; 2; 2] [1; 3; 4; 6; 7; 9; 10; 12; 13; 15; 16; 18]
          (Some ([Some BATCH; Some "F"; Some LENGTH], ["first"; "middle"; "last"], [true; false; false], [false; false; true], [2; 2; 1]))).
Proof. vm_compute. reflexivity. Qed.

(** tests/test_tensor.py 808-914 (lists, integer and boolean tensors on the length dimension). *)
Example length_list_1 :
  look (x_getitem bfl (XTuple [Plain (ISlice (mkSlice None None None)); Plain (ISlice (mkSlice None None None)); Plain (IList [1; 2])]))
  = Ok (seen [3; 2; 2] [2; 3; 5; 6; 8; 9; 11; 12; 14; 15; 17; 18]
          (Some ([Some BATCH; Some "F"; Some LENGTH], ["first"; "middle"; "last"], [false; false; false], [false; false; true], [2; 2; 1]))).
Proof. vm_compute. reflexivity. Qed.
Example length_list_2 :
  look (x_getitem bfl (XTuple [Plain (ISlice (mkSlice None None None)); Plain (ISlice (mkSlice None None None)); Plain (ITen [1; 2])]))
  = Ok (seen [3; 2; 2] [2; 3; 5; 6; 8; 9; 11; 12; 14; 15; 17; 18]
          (Some ([Some BATCH; Some "F"; Some LENGTH], ["first"; "middle"; "last"], [false; false; false], [false; false; true], [2; 2; 1]))).
Proof. vm_compute. reflexivity. Qed.
Example length_list_3 :
  look (x_getitem bfl (XTuple [Plain (ISlice (mkSlice None None None)); Plain (ISlice (mkSlice None None None)); XInts (table [2] [1; 2])]))
  = Ok (seen [3; 2; 2] [2; 3; 5; 6; 8; 9; 11; 12; 14; 15; 17; 18]
          (Some ([Some BATCH; Some "F"; Some LENGTH], ["first"; "middle"; "last"], [false; false; false], [false; false; true], [2; 2; 1]))).
Proof. vm_compute. reflexivity. Qed.
Example length_list_4 :
  look (x_getitem bfl (XTuple [Plain (ISlice (mkSlice None None None)); Plain (ISlice (mkSlice None None None)); Plain (IList [0; 2])]))
  = Ok (seen [3; 2; 2] [1; 3; 4; 6; 7; 9; 10; 12; 13; 15; 16; 18]
          (Some ([Some BATCH; Some "F"; Some LENGTH], ["first"; "middle"; "last"], [true; false; false], [false; false; true], [2; 2; 1]))).
Proof. vm_compute. reflexivity. Qed.
Example length_list_5 :
  look (x_getitem bfl (XTuple [Plain (ISlice (mkSlice None None None)); Plain (ISlice (mkSlice None None None)); Plain (ITen [0; 2])]))
  = Ok (seen [3; 2; 2] [1; 3; 4; 6; 7; 9; 10; 12; 13; 15; 16; 18]
          (Some ([Some BATCH; Some "F"; Some LENGTH], ["first"; "middle"; "last"], [true; false; false], [false; false; true], [2; 2; 1]))).
Proof. vm_compute. reflexivity. Qed.
Example length_list_6 :
  look (x_getitem bfl (XTuple [Plain (ISlice (mkSlice None None None)); Plain (ISlice (mkSlice None None None)); XInts (table [2] [0; 2])]))
  = Ok (seen [3; 2; 2] [1; 3; 4; 6; 7; 9; 10; 12; 13; 15; 16; 18]
          (Some ([Some BATCH; Some "F"; Some LENGTH], ["first"; "middle"; "last"], [true; false; false], [false; false; true], [2; 2; 1]))).
Proof. vm_compute. reflexivity. Qed.
Example length_list_7 :
  look (x_getitem bfl (XTuple [Plain (ISlice (mkSlice None None None)); Plain (ISlice (mkSlice None None None)); Plain (IList [0; 1])]))
  = Ok (seen [3; 2; 2] [1; 2; 4; 5; 7; 8; 10; 11; 13; 14; 16; 17]
          (Some ([Some BATCH; Some "F"; Some LENGTH], ["first"; "middle"; "last"], [true; false; false], [false; false; false], [2; 2; 2]))).
Proof. vm_compute. reflexivity. Qed.
Example length_list_8 :
  look (x_getitem bfl (XTuple [Plain (ISlice (mkSlice None None None)); Plain (ISlice (mkSlice None None None)); Plain (ITen [0; 1])]))
  = Ok (seen [3; 2; 2] [1; 2; 4; 5; 7; 8; 10; 11; 13; 14; 16; 17]
          (Some ([Some BATCH; Some "F"; Some LENGTH], ["first"; "middle"; "last"], [true; false; false], [false; false; false], [2; 2; 2]))).
Proof. vm_compute. reflexivity. Qed.
Example length_list_9 :
  look (x_getitem bfl (XTuple [Plain (ISlice (mkSlice None None None)); Plain (ISlice (mkSlice None None None)); XInts (table [2] [0; 1])]))
  = Ok (seen [3; 2; 2] [1; 2; 4; 5; 7; 8; 10; 11; 13; 14; 16; 17]
          (Some ([Some BATCH; Some "F"; Some LENGTH], ["first"; "middle"; "last"], [true; false; false], [false; false; false], [2; 2; 2]))).
Proof. vm_compute. reflexivity. Qed.
Example length_mask_1 :
  look (x_getitem bfl (XTuple [Plain (ISlice (mkSlice None None None)); Plain (ISlice (mkSlice None None None)); Plain (IMask [false; true; true])]))
  = Ok (seen [3; 2; 2] [2; 3; 5; 6; 8; 9; 11; 12; 14; 15; 17; 18]
          (Some ([Some BATCH; Some "F"; Some LENGTH], ["first"; "middle"; "last"], [false; false; false], [false; false; true], [2; 2; 1]))).
Proof. vm_compute. reflexivity. Qed.
Example length_mask_2 :
  look (x_getitem bfl (XTuple [Plain (ISlice (mkSlice None None None)); Plain (ISlice (mkSlice None None None)); XMask (btable [3] [false; true; true])]))
  = Ok (seen [3; 2; 2] [2; 3; 5; 6; 8; 9; 11; 12; 14; 15; 17; 18]
          (Some ([Some BATCH; Some "F"; Some LENGTH], ["first"; "middle"; "last"], [false; false; false], [false; false; true], [2; 2; 1]))).
Proof. vm_compute. reflexivity. Qed.
Example length_mask_3 :
  look (x_getitem bfl (XTuple [Plain (ISlice (mkSlice None None None)); Plain (ISlice (mkSlice None None None)); Plain (IMask [true; true; false])]))
  = Ok (seen [3; 2; 2] [1; 2; 4; 5; 7; 8; 10; 11; 13; 14; 16; 17]
          (Some ([Some BATCH; Some "F"; Some LENGTH], ["first"; "middle"; "last"], [true; false; false], [false; false; false], [2; 2; 2]))).
Proof. vm_compute. reflexivity. Qed.
Example length_mask_4 :
  look (x_getitem bfl (XTuple [Plain (ISlice (mkSlice None None None)); Plain (ISlice (mkSlice None None None)); XMask (btable [3] [true; true; false])]))
  = Ok (seen [3; 2; 2] [1; 2; 4; 5; 7; 8; 10; 11; 13; 14; 16; 17]
          (Some ([Some BATCH; Some "F"; Some LENGTH], ["first"; "middle"; "last"], [true; false; false], [false; false; false], [2; 2; 2]))).
Proof. vm_compute. reflexivity. Qed.

(** tests/test_tensor.py 917-928. *)
Example mask_batch_feature_1 :
  look (x_getitem bfl (XSingle (XMask (btable [3; 2] [true; true; false; true; true; false]))))
  = Ok (seen [4; 3] [1; 2; 3; 4; 5; 6; 10; 11; 12; 13; 14; 15]
          (Some ([Some "B_F"; Some LENGTH], ["first"; "middle"; "last"], [true; false; false], [false; false; true], [3; 3; 2]))).
Proof. vm_compute. reflexivity. Qed.

(** tests/test_tensor.py 930-951. *)
Example mask_feature_length_1 :
  look (x_getitem bfl (XTuple [Plain (ISlice (mkSlice None None None)); XMask (btable [2; 3] [true; true; true; true; false; false])]))
  = Ok (seen [3; 4] [1; 2; 3; 4; 7; 8; 9; 10; 13; 14; 15; 16]
          (Some ([Some BATCH; Some "F_L"], ["first"; "middle"; "last"], [true; false; false], [false; false; true], [3; 3; 2]))).
Proof. vm_compute. reflexivity. Qed.
Example mask_feature_length_2 :
  look (x_getitem bfl (XTuple [Plain (ISlice (mkSlice None None None)); XMask (btable [2; 3] [true; false; false; true; false; false])]))
  = Ok (seen [3; 2] [1; 4; 7; 10; 13; 16]
          (Some ([Some BATCH; Some "F_L"], ["first"; "middle"; "last"], [true; false; false], [false; false; false], [1; 1; 1]))).
Proof. vm_compute. reflexivity. Qed.

(** tests/test_tensor.py 953-989 (masks over batch and length: plain tensors). *)
Example mask_batch_length_1 :
  look (x_getitem lbf (XSingle (XMask (btable [3; 3] [true; true; true; true; false; false; true; true; true]))))
  = Ok (seen [7; 2] [1; 4; 7; 10; 13; 16; 2; 5; 3; 6; 9; 12; 15; 18] None).
Proof. vm_compute. reflexivity. Qed.
Example mask_batch_length_2 :
  look (x_getitem lbf (XSingle (XMask (btable [3; 3] [true; true; true; false; false; false; true; true; true]))))
  = Ok (seen [6; 2] [1; 4; 7; 10; 13; 16; 3; 6; 9; 12; 15; 18] None).
Proof. vm_compute. reflexivity. Qed.
Example mask_batch_length_3 :
  look (x_getitem lbf (XSingle (XMask (btable [3; 3] [false; true; true; false; false; false; true; false; false]))))
  = Ok (seen [3; 2] [7; 10; 13; 16; 3; 6] None).
Proof. vm_compute. reflexivity. Qed.
Example mask_batch_length_4 :
  look (x_getitem blf (XSingle (XMask (btable [3; 3] [false; true; true; false; false; false; true; false; false]))))
  = Ok (seen [3; 2] [2; 5; 3; 6; 13; 16] None).
Proof. vm_compute. reflexivity. Qed.
Example mask_all_1 :
  look (x_getitem bfl (XSingle (XMask (btable [3; 2; 3] [true; true; true; true; false; false; true; false; false; true; false; false; true; false; false; true; false; false]))))
  = Ok (seen [8] [1; 2; 3; 4; 7; 10; 13; 16] None).
Proof. vm_compute. reflexivity. Qed.

(** tests/test_tensor.py 992-1012 (two-dimensional integer tensors). *)
Example ints_2d_1 :
  look (x_getitem bfl (XTuple [Plain (ISlice (mkSlice None None None)); XInts (table [2; 2] [0; 1; 1; 1])]))
  = Ok (seen [3; 2; 2; 3] [1; 2; 3; 4; 5; 6; 4; 5; 6; 4; 5; 6; 7; 8; 9; 10; 11; 12; 10; 11; 12; 10; 11; 12; 13; 14; 15; 16; 17; 18; 16; 17; 18; 16; 17; 18]
          (Some ([Some BATCH; None; Some "F"; Some LENGTH], ["first"; "middle"; "last"], [true; false; false], [false; false; true], [3; 3; 2]))).
Proof. vm_compute. reflexivity. Qed.
Example ints_2d_2 :
  look (x_getitem bfl (XSingle (XInts (table [2; 3] [0; 1; 2; 0; 1; 2]))))
  = Err IndexError.
Proof. vm_compute. reflexivity. Qed.
Example ints_2d_3 :
  look (x_getitem bfl (XTuple [Plain (IEll); XInts (table [2; 2] [0; 1; 1; 1])]))
  = Err IndexError.
Proof. vm_compute. reflexivity. Qed.

(** tests/test_tensor.py 1014-1056 (several dimensions). *)
Example several_1 :
  look (x_getitem bfl (XTuple [Plain (ISlice (mkSlice None None None)); Plain (IInt 0); Plain (IInt 0)]))
  = Ok (seen [3] [1; 7; 13]
          (Some ([Some BATCH], ["first"; "middle"; "last"], [true; false; false], [false; false; false], [1; 1; 1]))).
Proof. vm_compute. reflexivity. Qed.
Example several_2 :
  look (x_getitem bfl (XTuple [Plain (ISlice (mkSlice None None None)); Plain (IInt 0); Plain (ISlice (mkSlice (Some 1) None None))]))
  = Ok (seen [3; 2] [2; 3; 8; 9; 14; 15]
          (Some ([Some BATCH; Some LENGTH], ["first"; "middle"; "last"], [false; false; false], [false; false; true], [2; 2; 1]))).
Proof. vm_compute. reflexivity. Qed.
Example several_3 :
  look (x_getitem bfl (XTuple [Plain (ISlice (mkSlice None (Some (-1)) None)); Plain (ISlice (mkSlice None None None)); Plain (ISlice (mkSlice (Some 1) None None))]))
  = Ok (seen [2; 2; 2] [2; 3; 5; 6; 8; 9; 11; 12]
          (Some ([Some BATCH; Some "F"; Some LENGTH], ["first"; "middle"], [false; false], [false; false], [2; 2]))).
Proof. vm_compute. reflexivity. Qed.

(** tests/test_tensor.py 1058-1112 (Ellipsis). *)
Example ellipsis_1 :
  look (x_getitem bfl (XTuple [Plain (IInt 0); Plain (IEll)]))
  = Ok (seen [2; 3] [1; 2; 3; 4; 5; 6]
          (Some ([Some "F"; Some LENGTH], ["first"], [true], [false], [3]))).
Proof. vm_compute. reflexivity. Qed.
Example ellipsis_2 :
  look (x_getitem bfl (XTuple [Plain (IInt 0); Plain (IEll); Plain (ISlice (mkSlice None None None))]))
  = Ok (seen [2; 3] [1; 2; 3; 4; 5; 6]
          (Some ([Some "F"; Some LENGTH], ["first"], [true], [false], [3]))).
Proof. vm_compute. reflexivity. Qed.
Example ellipsis_3 :
  look (x_getitem bfl (XTuple [Plain (IInt 0); Plain (ISlice (mkSlice None None None)); Plain (IEll)]))
  = Ok (seen [2; 3] [1; 2; 3; 4; 5; 6]
          (Some ([Some "F"; Some LENGTH], ["first"], [true], [false], [3]))).
Proof. vm_compute. reflexivity. Qed.
Example ellipsis_4 :
  look (x_getitem bfl (XTuple [Plain (IInt 0); Plain (IEll); Plain (IEll)]))
  = Ok (seen [2; 3] [1; 2; 3; 4; 5; 6]
          (Some ([Some "F"; Some LENGTH], ["first"], [true], [false], [3]))).
Proof. vm_compute. reflexivity. Qed.
Example ellipsis_5 :
  look (x_getitem bfl (XTuple [Plain (IEll); Plain (IInt 0)]))
  = Ok (seen [3; 2] [1; 4; 7; 10; 13; 16]
          (Some ([Some BATCH; Some "F"], ["first"; "middle"; "last"], [true; false; false], [false; false; false], [1; 1; 1]))).
Proof. vm_compute. reflexivity. Qed.
(** torch lets every Ellipsis stand for two dimensions here, so that [..., 0, ...] takes the first time step, while names and
    metadata are those of the first feature; the test does not notice, as it compares with torch's own result. *)
Example ellipsis_6 :
  look (x_getitem bfl (XTuple [Plain (IEll); Plain (IInt 0); Plain (IEll)]))
  = Ok (seen [3; 2] [1; 4; 7; 10; 13; 16]
          (Some ([Some BATCH; Some LENGTH], ["first"; "middle"; "last"], [true; false; false], [false; false; true], [3; 3; 2]))).
Proof. vm_compute. reflexivity. Qed.

(** tests/test_tensor.py 1114-1167 (None). *)
Example none_1 :
  look (x_getitem bfl (XSingle (Plain (INone))))
  = Ok (seen [1; 3; 2; 3] [1; 2; 3; 4; 5; 6; 7; 8; 9; 10; 11; 12; 13; 14; 15; 16; 17; 18]
          (Some ([None; Some BATCH; Some "F"; Some LENGTH], ["first"; "middle"; "last"], [true; false; false], [false; false; true], [3; 3; 2]))).
Proof. vm_compute. reflexivity. Qed.
Example none_2 :
  look (x_getitem bfl (XTuple [Plain (INone); Plain (INone)]))
  = Ok (seen [1; 1; 3; 2; 3] [1; 2; 3; 4; 5; 6; 7; 8; 9; 10; 11; 12; 13; 14; 15; 16; 17; 18]
          (Some ([None; None; Some BATCH; Some "F"; Some LENGTH], ["first"; "middle"; "last"], [true; false; false], [false; false; true], [3; 3; 2]))).
Proof. vm_compute. reflexivity. Qed.
Example none_3 :
  look (x_getitem bfl (XTuple [Plain (ISlice (mkSlice None None None)); Plain (INone)]))
  = Ok (seen [3; 1; 2; 3] [1; 2; 3; 4; 5; 6; 7; 8; 9; 10; 11; 12; 13; 14; 15; 16; 17; 18]
          (Some ([Some BATCH; None; Some "F"; Some LENGTH], ["first"; "middle"; "last"], [true; false; false], [false; false; true], [3; 3; 2]))).
Proof. vm_compute. reflexivity. Qed.
Example none_4 :
  look (x_getitem bfl (XTuple [Plain (ISlice (mkSlice None None None)); Plain (ISlice (mkSlice None None None)); Plain (INone)]))
  = Ok (seen [3; 2; 1; 3] [1; 2; 3; 4; 5; 6; 7; 8; 9; 10; 11; 12; 13; 14; 15; 16; 17; 18]
          (Some ([Some BATCH; Some "F"; None; Some LENGTH], ["first"; "middle"; "last"], [true; false; false], [false; false; true], [3; 3; 2]))).
Proof. vm_compute. reflexivity. Qed.
Example none_5 :
  look (x_getitem bfl (XTuple [Plain (ISlice (mkSlice None None None)); Plain (ISlice (mkSlice None None None)); Plain (ISlice (mkSlice None None None)); Plain (INone)]))
  = Ok (seen [3; 2; 3; 1] [1; 2; 3; 4; 5; 6; 7; 8; 9; 10; 11; 12; 13; 14; 15; 16; 17; 18]
          (Some ([Some BATCH; Some "F"; Some LENGTH; None], ["first"; "middle"; "last"], [true; false; false], [false; false; true], [3; 3; 2]))).
Proof. vm_compute. reflexivity. Qed.
Example none_6 :
  look (x_getitem bfl (XTuple [Plain (IEll); Plain (INone)]))
  = Ok (seen [3; 2; 3; 1] [1; 2; 3; 4; 5; 6; 7; 8; 9; 10; 11; 12; 13; 14; 15; 16; 17; 18]
          (Some ([Some BATCH; Some "F"; Some LENGTH; None], ["first"; "middle"; "last"], [true; false; false], [false; false; true], [3; 3; 2]))).
Proof. vm_compute. reflexivity. Qed.

(** tests/test_tensor.py 1170-1260 (scatter_add, scatter_reduce). *)
Definition batch_index := (table [3; 2; 3] [0; 1; 2; 0; 1; 2; 0; 1; 2; 0; 1; 2; 0; 1; 2; 0; 1; 2]).
Definition feature_index := (table [3; 2; 3] [0; 1; 0; 0; 1; 0; 0; 1; 0; 0; 1; 0; 0; 1; 0; 0; 1; 0]).
Definition src := @SrcTensor Z (OStream (mkSt (mkTn (shp (tn bfl)) (fun p => at_ (tn bfl) p * 2)) (names bfl) (smeta bfl))).
(** The old value included (include_self, the default); integer tensors, mean rounded down. *)
Definition rsum (v : Z) (l : list Z) := fold_left Z.add l v.
Definition rmean (v : Z) (l : list Z) := fold_left Z.add l v / (1 + zlen l).
Definition rmax (v : Z) (l : list Z) := fold_left Z.max l v.
Definition rmin (v : Z) (l : list Z) := fold_left Z.min l v.
Example scatter_1 :
  look (scatter rsum false (OStream bfl) 0 batch_index None src)
  = Ok (seen [3; 2; 3] [43; 2; 3; 64; 5; 6; 7; 56; 9; 10; 77; 12; 13; 14; 69; 16; 17; 90] None).
Proof. vm_compute. reflexivity. Qed.
Example scatter_2 :
  look (scatter rsum false (OStream bfl) 1 feature_index None src)
  = Ok (seen [3; 2; 3] [11; 2; 21; 4; 19; 6; 41; 8; 51; 10; 49; 12; 71; 14; 81; 16; 79; 18]
          (Some ([Some BATCH; Some "F"; Some LENGTH], ["first"; "middle"; "last"], [true; false; false], [false; false; true], [3; 3; 2]))).
Proof. vm_compute. reflexivity. Qed.
Example scatter_3 :
  look (scatter rsum false (OStream bfl) 2 feature_index None src)
  = Ok (seen [3; 2; 3] [9; 6; 3; 24; 15; 6; 39; 24; 9; 54; 33; 12; 69; 42; 15; 84; 51; 18] None).
Proof. vm_compute. reflexivity. Qed.
Example scatter_4 :
  look (scatter rsum true (OStream bfl) 1 feature_index None src)
  = Ok (seen [3; 2; 3] [11; 2; 21; 4; 19; 6; 41; 8; 51; 10; 49; 12; 71; 14; 81; 16; 79; 18]
          (Some ([Some BATCH; Some "F"; Some LENGTH], ["first"; "middle"; "last"], [true; false; false], [false; false; true], [3; 3; 2]))).
Proof. vm_compute. reflexivity. Qed.
Example scatter_5 :
  look (scatter rmean false (OStream bfl) 0 batch_index None src)
  = Ok (seen [3; 2; 3] [10; 2; 3; 16; 5; 6; 7; 14; 9; 10; 19; 12; 13; 14; 17; 16; 17; 22] None).
Proof. vm_compute. reflexivity. Qed.
Example scatter_6 :
  look (scatter rmean false (OStream bfl) 1 feature_index None src)
  = Ok (seen [3; 2; 3] [3; 2; 7; 4; 6; 6; 13; 8; 17; 10; 16; 12; 23; 14; 27; 16; 26; 18]
          (Some ([Some BATCH; Some "F"; Some LENGTH], ["first"; "middle"; "last"], [true; false; false], [false; false; true], [3; 3; 2]))).
Proof. vm_compute. reflexivity. Qed.
Example scatter_7 :
  look (scatter rmean false (OStream bfl) 2 feature_index None src)
  = Ok (seen [3; 2; 3] [3; 3; 3; 8; 7; 6; 13; 12; 9; 18; 16; 12; 23; 21; 15; 28; 25; 18] None).
Proof. vm_compute. reflexivity. Qed.
Example scatter_8 :
  look (scatter rmean true (OStream bfl) 1 feature_index None src)
  = Ok (seen [3; 2; 3] [3; 2; 7; 4; 6; 6; 13; 8; 17; 10; 16; 12; 23; 14; 27; 16; 26; 18]
          (Some ([Some BATCH; Some "F"; Some LENGTH], ["first"; "middle"; "last"], [true; false; false], [false; false; true], [3; 3; 2]))).
Proof. vm_compute. reflexivity. Qed.
Example scatter_9 :
  look (scatter rmax false (OStream bfl) 0 batch_index None src)
  = Ok (seen [3; 2; 3] [26; 2; 3; 32; 5; 6; 7; 28; 9; 10; 34; 12; 13; 14; 30; 16; 17; 36] None).
Proof. vm_compute. reflexivity. Qed.
Example scatter_10 :
  look (scatter rmax false (OStream bfl) 1 feature_index None src)
  = Ok (seen [3; 2; 3] [8; 2; 12; 4; 10; 6; 20; 8; 24; 10; 22; 12; 32; 14; 36; 16; 34; 18]
          (Some ([Some BATCH; Some "F"; Some LENGTH], ["first"; "middle"; "last"], [true; false; false], [false; false; true], [3; 3; 2]))).
Proof. vm_compute. reflexivity. Qed.
Example scatter_11 :
  look (scatter rmax false (OStream bfl) 2 feature_index None src)
  = Ok (seen [3; 2; 3] [6; 4; 3; 12; 10; 6; 18; 16; 9; 24; 22; 12; 30; 28; 15; 36; 34; 18] None).
Proof. vm_compute. reflexivity. Qed.
Example scatter_12 :
  look (scatter rmax true (OStream bfl) 1 feature_index None src)
  = Ok (seen [3; 2; 3] [8; 2; 12; 4; 10; 6; 20; 8; 24; 10; 22; 12; 32; 14; 36; 16; 34; 18]
          (Some ([Some BATCH; Some "F"; Some LENGTH], ["first"; "middle"; "last"], [true; false; false], [false; false; true], [3; 3; 2]))).
Proof. vm_compute. reflexivity. Qed.
Example scatter_13 :
  look (scatter rmin false (OStream bfl) 0 batch_index None src)
  = Ok (seen [3; 2; 3] [1; 2; 3; 4; 5; 6; 7; 4; 9; 10; 10; 12; 13; 14; 6; 16; 17; 12] None).
Proof. vm_compute. reflexivity. Qed.
Example scatter_14 :
  look (scatter rmin false (OStream bfl) 1 feature_index None src)
  = Ok (seen [3; 2; 3] [1; 2; 3; 4; 4; 6; 7; 8; 9; 10; 11; 12; 13; 14; 15; 16; 17; 18]
          (Some ([Some BATCH; Some "F"; Some LENGTH], ["first"; "middle"; "last"], [true; false; false], [false; false; true], [3; 3; 2]))).
Proof. vm_compute. reflexivity. Qed.
Example scatter_15 :
  look (scatter rmin false (OStream bfl) 2 feature_index None src)
  = Ok (seen [3; 2; 3] [1; 2; 3; 4; 5; 6; 7; 8; 9; 10; 11; 12; 13; 14; 15; 16; 17; 18] None).
Proof. vm_compute. reflexivity. Qed.
Example scatter_16 :
  look (scatter rmin true (OStream bfl) 1 feature_index None src)
  = Ok (seen [3; 2; 3] [1; 2; 3; 4; 4; 6; 7; 8; 9; 10; 11; 12; 13; 14; 15; 16; 17; 18]
          (Some ([Some BATCH; Some "F"; Some LENGTH], ["first"; "middle"; "last"], [true; false; false], [false; false; true], [3; 3; 2]))).
Proof. vm_compute. reflexivity. Qed.

(** tests/test_tensor.py 1263-1278 (flatten). *)
Example flatten_1 :
  look_sum (flatten bfld 0 1)
  = Ok (seen [6; 2; 3] [1; 2; 3; 1; 2; 3; 4; 5; 6; 4; 5; 6; 7; 8; 9; 7; 8; 9; 10; 11; 12; 10; 11; 12; 13; 14; 15; 13; 14; 15; 16; 17; 18; 16; 17; 18] None).
Proof. vm_compute. reflexivity. Qed.
Example flatten_2 :
  look_sum (flatten bfld 1 2)
  = Ok (seen [3; 4; 3] [1; 2; 3; 1; 2; 3; 4; 5; 6; 4; 5; 6; 7; 8; 9; 7; 8; 9; 10; 11; 12; 10; 11; 12; 13; 14; 15; 13; 14; 15; 16; 17; 18; 16; 17; 18]
          (Some ([Some BATCH; Some "F_D"; Some LENGTH], ["first"; "middle"; "last"], [true; false; false], [false; false; true], [3; 3; 2]))).
Proof. vm_compute. reflexivity. Qed.
Example flatten_3 :
  look_sum (flatten bfld 2 3)
  = Ok (seen [3; 2; 6] [1; 2; 3; 1; 2; 3; 4; 5; 6; 4; 5; 6; 7; 8; 9; 7; 8; 9; 10; 11; 12; 10; 11; 12; 13; 14; 15; 13; 14; 15; 16; 17; 18; 16; 17; 18] None).
Proof. vm_compute. reflexivity. Qed.

(** tests/test_tensor.py 1281-1342 (unsqueeze, squeeze). *)
Example unsqueeze_1 :
  see (unsqueeze bfl 0)
  = Ok (seen [1; 3; 2; 3] [1; 2; 3; 4; 5; 6; 7; 8; 9; 10; 11; 12; 13; 14; 15; 16; 17; 18]
          (Some ([None; Some BATCH; Some "F"; Some LENGTH], ["first"; "middle"; "last"], [true; false; false], [false; false; true], [3; 3; 2]))).
Proof. vm_compute. reflexivity. Qed.
Example unsqueeze_2 :
  see (do x <- unsqueeze bfl 0; unsqueeze x 0)
  = Ok (seen [1; 1; 3; 2; 3] [1; 2; 3; 4; 5; 6; 7; 8; 9; 10; 11; 12; 13; 14; 15; 16; 17; 18]
          (Some ([None; None; Some BATCH; Some "F"; Some LENGTH], ["first"; "middle"; "last"], [true; false; false], [false; false; true], [3; 3; 2]))).
Proof. vm_compute. reflexivity. Qed.
Example unsqueeze_3 :
  see (do x <- unsqueeze bfl 0; do y <- unsqueeze x 2; unsqueeze y 0)
  = Ok (seen [1; 1; 3; 1; 2; 3] [1; 2; 3; 4; 5; 6; 7; 8; 9; 10; 11; 12; 13; 14; 15; 16; 17; 18]
          (Some ([None; None; Some BATCH; None; Some "F"; Some LENGTH], ["first"; "middle"; "last"], [true; false; false], [false; false; true], [3; 3; 2]))).
Proof. vm_compute. reflexivity. Qed.
Example squeeze_1 :
  see (squeeze bfl (Some 0))
  = Ok (seen [3; 2; 3] [1; 2; 3; 4; 5; 6; 7; 8; 9; 10; 11; 12; 13; 14; 15; 16; 17; 18]
          (Some ([Some BATCH; Some "F"; Some LENGTH], ["first"; "middle"; "last"], [true; false; false], [false; false; true], [3; 3; 2]))).
Proof. vm_compute. reflexivity. Qed.
Example squeeze_2 :
  see (do x <- as_stream_tensor (BTensor (table [3; 1; 3] [5; 7; 9; 17; 19; 21; 29; 31; 33]) [None; None; None]) (Some (smeta bfl)) (Some (names bfl)); squeeze x (Some 1))
  = Ok (seen [3; 3] [5; 7; 9; 17; 19; 21; 29; 31; 33]
          (Some ([Some BATCH; Some LENGTH], ["first"; "middle"; "last"], [true; false; false], [false; false; true], [3; 3; 2]))).
Proof. vm_compute. reflexivity. Qed.
Example squeeze_3 :
  see (do x <- unsqueeze bfl 0; do y <- unsqueeze x 0; do z <- as_stream_tensor (BStream y) (Some (smeta bfl)) (Some (None :: None :: names bfl)); squeeze z None)
  = Ok (seen [3; 2; 3] [1; 2; 3; 4; 5; 6; 7; 8; 9; 10; 11; 12; 13; 14; 15; 16; 17; 18]
          (Some ([Some BATCH; Some "F"; Some LENGTH], ["first"; "middle"; "last"], [true; false; false], [false; false; true], [3; 3; 2]))).
Proof. vm_compute. reflexivity. Qed.

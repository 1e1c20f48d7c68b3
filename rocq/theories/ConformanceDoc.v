(** The examples of GentleIntroductionToGCS.md, run on the model.  Like
    Conformance.v this only checks that the model behaves as the document says;
    the general statements are C108, C17, C23 and C60. *)
From Verif Require Import Py SliceTools Basics Storage Spec PropIntro.
From Coq Require Import List.

(** Nested lists of integers; X is None. *)
Definition X := VNone.
Definition row (l : list Z) : pyval := VSeq (map VInt l).

(** The elements of the wrapped array, row by row. *)
Definition reduction_array (v : pyval) (dims partitioning : list Z) : res (list (list pyval)) :=
  '(s, h) <- dm_fromobject [] (SrcSeq v) fo_default (Some dims) (Some partitioning) CStrided ;;
  match s with
  | SDM _ _ _ _ _ d =>
      match shape_of d with
      | [n; m] => mapM (fun r => mapM (fun c => get_elem h d [r; c]) (zseq m)) (zseq n)
      | _ => Raise ValueError
      end
  | _ => Raise TypeError
  end.

(** crow_indices, col_indices and values of the wrapped CSR array. *)
Definition compressed_array (v : pyval) (dims partitioning : list Z) : res (list pyval * list pyval * list pyval) :=
  '(s, h) <- dm_fromobject [] (SrcSeq v) fo_default (Some dims) (Some partitioning) CCSR ;;
  match s with
  | SDM _ _ _ _ _ (SCSR _ crow col d) =>
      Ok (nth (baddr crow) h [], nth (baddr col) h [], nth (baddr d) h [])
  | _ => Raise TypeError
  end.
Definition CSR_array (v : pyval) : res (list pyval * list pyval * list pyval) :=
  '(s, h) <- fromobject CCSR [] (SrcSeq v) fo_default ;;
  match s with
  | SCSR _ crow col d => Ok (nth (baddr crow) h [], nth (baddr col) h [], nth (baddr d) h [])
  | _ => Raise TypeError
  end.
Definition COO_array (v : pyval) : res (list pyval * list pyval) :=
  '(s, h) <- fromobject CCOO [] (SrcSeq v) fo_default ;;
  match s with
  | SCOO _ ind d => Ok (nth (baddr (sdata ind)) h [], nth (baddr d) h [])
  | _ => Raise TypeError
  end.
Definition ints (l : list Z) : list pyval := map VInt l.

(** Lines 98-131: strides (3, 1) at offset 0, and (-1, -2) at offset 5. *)
Definition strided_elements (mem : list Z) (size offset : Z) (strides : list Z) : res (list pyval) :=
  let h := [ints mem] in
  b <- mk_buffer h size offset 0 VNone ;;
  s <- mk_strided [2; 3] strides b ;;
  mapM (get_elem h (SStrided s)) (cart [2; 3]).
Example introduction_strided :
  strided_elements [1; 2; 3; 4; 5; 6] 6 0 [3; 1] = Ok (ints [1; 2; 3; 4; 5; 6])
  /\ strided_elements [6; 3; 5; 2; 4; 1] 1 5 [-1; -2] = Ok (ints [1; 2; 3; 4; 5; 6]).
Proof. vm_compute. split; reflexivity. Qed.

(** Lines 150-176. *)
Definition sample23 : pyval := VSeq [VSeq [X; VInt 1; X]; VSeq [VInt 2; X; VInt 3]].
Example introduction_COO : COO_array sample23 = Ok (ints [0; 1; 1; 1; 0; 2], ints [1; 2; 3]).
Proof. vm_compute. reflexivity. Qed.

(** Lines 200-263: COO, CRS and, with the axes swapped, CCS. *)
Definition sample45 : pyval :=
  VSeq [VSeq [X; X; VInt 1; X; VInt 2];
        VSeq [VInt 3; X; X; VInt 4; X];
        VSeq [VInt 5; X; VInt 6; VInt 7; X];
        VSeq [X; X; X; VInt 8; VInt 9]].
Example introduction_COO45 : COO_array sample45
  = Ok (ints [0; 0; 1; 1; 2; 2; 2; 3; 3; 2; 4; 0; 3; 0; 2; 3; 3; 4], ints [1; 2; 3; 4; 5; 6; 7; 8; 9]).
Proof. vm_compute. reflexivity. Qed.
Example introduction_CRS : CSR_array sample45
  = Ok (ints [0; 2; 4; 7; 9], ints [2; 4; 0; 3; 0; 2; 3; 3; 4], ints [1; 2; 3; 4; 5; 6; 7; 8; 9]).
Proof. vm_compute. reflexivity. Qed.
Example introduction_CCS : compressed_array sample45 [1; 0] [1]
  = Ok (ints [0; 2; 2; 4; 7; 9], ints [1; 2; 0; 2; 1; 2; 3; 0; 3], ints [3; 5; 1; 6; 4; 7; 8; 2; 9]).
Proof. vm_compute. reflexivity. Qed.

(** Lines 403-513: three mappings of a 2 x 3 x 4 array. *)
Definition sample234 : pyval :=
  VSeq [VSeq [VSeq [X; VInt 1; VInt 2; VInt 3]; VSeq [X; X; X; X]; VSeq [X; VInt 4; X; X]];
        VSeq [VSeq [VInt 5; X; X; VInt 6]; VSeq [X; X; X; X]; VSeq [VInt 7; X; VInt 8; VInt 9]]].
Example introduction_012_2 : compressed_array sample234 [0; 1; 2] [2]
  = Ok (ints [0; 3; 3; 4; 6; 6; 9], ints [1; 2; 3; 1; 0; 3; 0; 2; 3], ints [1; 2; 3; 4; 5; 6; 7; 8; 9]).
Proof. vm_compute. reflexivity. Qed.
Example introduction_012_1 : compressed_array sample234 [0; 1; 2] [1]
  = Ok (ints [0; 4; 9], ints [1; 2; 3; 9; 0; 3; 8; 10; 11], ints [1; 2; 3; 4; 5; 6; 7; 8; 9]).
Proof. vm_compute. reflexivity. Qed.
Example introduction_210_1 : compressed_array sample234 [2; 1; 0] [1]
  = Ok (ints [0; 2; 4; 6; 9], ints [1; 5; 0; 4; 0; 5; 0; 1; 5], ints [5; 7; 1; 4; 2; 8; 3; 6; 9]).
Proof. vm_compute. reflexivity. Qed.

(** Lines 527-609: the twelve mappings of a 2 x 3 x 4 array; the element at
    (a, b, c) is 100 a + 10 b + c. *)
Definition numbered : pyval :=
  VSeq (map (fun a => VSeq (map (fun b => VSeq (map (fun c => VInt (100 * a + 10 * b + c)) (zseq 4))) (zseq 3))) (zseq 2)).
Example introduction_table :
  (* line 529 *) reduction_array numbered [0; 1; 2] [1]
    = Ok (map ints [[0; 1; 2; 3; 10; 11; 12; 13; 20; 21; 22; 23]; [100; 101; 102; 103; 110; 111; 112; 113; 120; 121; 122; 123]])
  /\ (* line 532 *) reduction_array numbered [0; 2; 1] [1]
    = Ok (map ints [[0; 10; 20; 1; 11; 21; 2; 12; 22; 3; 13; 23]; [100; 110; 120; 101; 111; 121; 102; 112; 122; 103; 113; 123]])
  /\ (* line 535 *) reduction_array numbered [1; 0; 2] [1]
    = Ok (map ints [[0; 1; 2; 3; 100; 101; 102; 103]; [10; 11; 12; 13; 110; 111; 112; 113]; [20; 21; 22; 23; 120; 121; 122; 123]])
  /\ (* line 539 *) reduction_array numbered [1; 2; 0] [1]
    = Ok (map ints [[0; 100; 1; 101; 2; 102; 3; 103]; [10; 110; 11; 111; 12; 112; 13; 113]; [20; 120; 21; 121; 22; 122; 23; 123]])
  /\ (* line 543 *) reduction_array numbered [2; 0; 1] [1]
    = Ok (map ints [[0; 10; 20; 100; 110; 120]; [1; 11; 21; 101; 111; 121]; [2; 12; 22; 102; 112; 122]; [3; 13; 23; 103; 113; 123]])
  /\ (* line 548 *) reduction_array numbered [2; 1; 0] [1]
    = Ok (map ints [[0; 100; 10; 110; 20; 120]; [1; 101; 11; 111; 21; 121]; [2; 102; 12; 112; 22; 122]; [3; 103; 13; 113; 23; 123]])
  /\ (* line 553 *) reduction_array numbered [0; 1; 2] [2]
    = Ok (map ints [[0; 1; 2; 3]; [10; 11; 12; 13]; [20; 21; 22; 23]; [100; 101; 102; 103]; [110; 111; 112; 113]; [120; 121; 122; 123]])
  /\ (* line 560 *) reduction_array numbered [0; 2; 1] [2]
    = Ok (map ints [[0; 10; 20]; [1; 11; 21]; [2; 12; 22]; [3; 13; 23]; [100; 110; 120]; [101; 111; 121]; [102; 112; 122]; [103; 113; 123]])
  /\ (* line 569 *) reduction_array numbered [1; 0; 2] [2]
    = Ok (map ints [[0; 1; 2; 3]; [100; 101; 102; 103]; [10; 11; 12; 13]; [110; 111; 112; 113]; [20; 21; 22; 23]; [120; 121; 122; 123]])
  /\ (* line 576 *) reduction_array numbered [1; 2; 0] [2]
    = Ok (map ints [[0; 100]; [1; 101]; [2; 102]; [3; 103]; [10; 110]; [11; 111]; [12; 112]; [13; 113]; [20; 120]; [21; 121]; [22; 122]; [23; 123]])
  /\ (* line 589 *) reduction_array numbered [2; 0; 1] [2]
    = Ok (map ints [[0; 10; 20]; [100; 110; 120]; [1; 11; 21]; [101; 111; 121]; [2; 12; 22]; [102; 112; 122]; [3; 13; 23]; [103; 113; 123]])
  /\ (* line 598 *) reduction_array numbered [2; 1; 0] [2]
    = Ok (map ints [[0; 100]; [10; 110]; [20; 120]; [1; 101]; [11; 111]; [21; 121]; [2; 102]; [12; 112]; [22; 122]; [3; 103]; [13; 113]; [23; 123]]).
Proof. vm_compute. repeat split; reflexivity. Qed.

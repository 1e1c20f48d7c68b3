(** The parametrized tests of gcs/tests/test_storage.py on the model, see Conformance.v. *)
From Verif Require Import Py SliceTools Basics Storage Enumerate Spec Conformance.
From Coq Require Import List.
Import ListNotations.

Definition parameters_2_1 : list (cls * list Z * list Z) :=
  [(CStrided, [0; 1], []);
   (CStrided, [1; 0], []);
   (CCOO, [0; 1], []);
   (CCOO, [1; 0], []);
   (CFlatCOO, [0; 1], []);
   (CFlatCOO, [1; 0], []);
   (CBuffer, [0; 1], []);
   (CBuffer, [1; 0], [])].
Definition parameters_2_2 : list (cls * list Z * list Z) :=
  [(CStrided, [0; 1], [1]);
   (CStrided, [1; 0], [1]);
   (CCOO, [0; 1], [1]);
   (CCOO, [1; 0], [1]);
   (CFlatCOO, [0; 1], [1]);
   (CFlatCOO, [1; 0], [1]);
   (CCSR, [0; 1], [1]);
   (CCSR, [1; 0], [1])].
Definition parameters_3_1 : list (cls * list Z * list Z) :=
  [(CStrided, [0; 1; 2], []);
   (CStrided, [0; 2; 1], []);
   (CStrided, [1; 0; 2], []);
   (CStrided, [1; 2; 0], []);
   (CStrided, [2; 0; 1], []);
   (CStrided, [2; 1; 0], []);
   (CCOO, [0; 1; 2], []);
   (CCOO, [0; 2; 1], []);
   (CCOO, [1; 0; 2], []);
   (CCOO, [1; 2; 0], []);
   (CCOO, [2; 0; 1], []);
   (CCOO, [2; 1; 0], []);
   (CFlatCOO, [0; 1; 2], []);
   (CFlatCOO, [0; 2; 1], []);
   (CFlatCOO, [1; 0; 2], []);
   (CFlatCOO, [1; 2; 0], []);
   (CFlatCOO, [2; 0; 1], []);
   (CFlatCOO, [2; 1; 0], []);
   (CBuffer, [0; 1; 2], []);
   (CBuffer, [0; 2; 1], []);
   (CBuffer, [1; 0; 2], []);
   (CBuffer, [1; 2; 0], []);
   (CBuffer, [2; 0; 1], []);
   (CBuffer, [2; 1; 0], [])].
Definition parameters_3_2 : list (cls * list Z * list Z) :=
  [(CStrided, [0; 1; 2], [1]);
   (CStrided, [0; 1; 2], [2]);
   (CStrided, [0; 2; 1], [1]);
   (CStrided, [0; 2; 1], [2]);
   (CStrided, [1; 0; 2], [1]);
   (CStrided, [1; 0; 2], [2]);
   (CStrided, [1; 2; 0], [1]);
   (CStrided, [1; 2; 0], [2]);
   (CStrided, [2; 0; 1], [1]);
   (CStrided, [2; 0; 1], [2]);
   (CStrided, [2; 1; 0], [1]);
   (CStrided, [2; 1; 0], [2]);
   (CCOO, [0; 1; 2], [1]);
   (CCOO, [0; 1; 2], [2]);
   (CCOO, [0; 2; 1], [1]);
   (CCOO, [0; 2; 1], [2]);
   (CCOO, [1; 0; 2], [1]);
   (CCOO, [1; 0; 2], [2]);
   (CCOO, [1; 2; 0], [1]);
   (CCOO, [1; 2; 0], [2]);
   (CCOO, [2; 0; 1], [1]);
   (CCOO, [2; 0; 1], [2]);
   (CCOO, [2; 1; 0], [1]);
   (CCOO, [2; 1; 0], [2]);
   (CFlatCOO, [0; 1; 2], [1]);
   (CFlatCOO, [0; 1; 2], [2]);
   (CFlatCOO, [0; 2; 1], [1]);
   (CFlatCOO, [0; 2; 1], [2]);
   (CFlatCOO, [1; 0; 2], [1]);
   (CFlatCOO, [1; 0; 2], [2]);
   (CFlatCOO, [1; 2; 0], [1]);
   (CFlatCOO, [1; 2; 0], [2]);
   (CFlatCOO, [2; 0; 1], [1]);
   (CFlatCOO, [2; 0; 1], [2]);
   (CFlatCOO, [2; 1; 0], [1]);
   (CFlatCOO, [2; 1; 0], [2]);
   (CCSR, [0; 1; 2], [1]);
   (CCSR, [0; 1; 2], [2]);
   (CCSR, [0; 2; 1], [1]);
   (CCSR, [0; 2; 1], [2]);
   (CCSR, [1; 0; 2], [1]);
   (CCSR, [1; 0; 2], [2]);
   (CCSR, [1; 2; 0], [1]);
   (CCSR, [1; 2; 0], [2]);
   (CCSR, [2; 0; 1], [1]);
   (CCSR, [2; 0; 1], [2]);
   (CCSR, [2; 1; 0], [1]);
   (CCSR, [2; 1; 0], [2])].
Definition parameters_3_3 : list (cls * list Z * list Z) :=
  [(CStrided, [0; 1; 2], [1; 2]);
   (CStrided, [0; 2; 1], [1; 2]);
   (CStrided, [1; 0; 2], [1; 2]);
   (CStrided, [1; 2; 0], [1; 2]);
   (CStrided, [2; 0; 1], [1; 2]);
   (CStrided, [2; 1; 0], [1; 2]);
   (CCOO, [0; 1; 2], [1; 2]);
   (CCOO, [0; 2; 1], [1; 2]);
   (CCOO, [1; 0; 2], [1; 2]);
   (CCOO, [1; 2; 0], [1; 2]);
   (CCOO, [2; 0; 1], [1; 2]);
   (CCOO, [2; 1; 0], [1; 2]);
   (CFlatCOO, [0; 1; 2], [1; 2]);
   (CFlatCOO, [0; 2; 1], [1; 2]);
   (CFlatCOO, [1; 0; 2], [1; 2]);
   (CFlatCOO, [1; 2; 0], [1; 2]);
   (CFlatCOO, [2; 0; 1], [1; 2]);
   (CFlatCOO, [2; 1; 0], [1; 2])].
Definition parameters_5_1 : list (cls * list Z * list Z) :=
  [(CStrided, [0; 1; 2; 3; 4], []);
   (CStrided, [0; 1; 2; 4; 3], []);
   (CStrided, [1; 2; 0; 3; 4], []);
   (CCOO, [0; 1; 2; 3; 4], []);
   (CCOO, [0; 1; 2; 4; 3], []);
   (CCOO, [1; 2; 0; 3; 4], []);
   (CFlatCOO, [0; 1; 2; 3; 4], []);
   (CFlatCOO, [0; 1; 2; 4; 3], []);
   (CFlatCOO, [1; 2; 0; 3; 4], []);
   (CBuffer, [0; 1; 2; 3; 4], []);
   (CBuffer, [0; 1; 2; 4; 3], []);
   (CBuffer, [1; 2; 0; 3; 4], [])].
Definition parameters_5_2 : list (cls * list Z * list Z) :=
  [(CStrided, [0; 1; 2; 3; 4], [1]);
   (CStrided, [0; 1; 2; 3; 4], [2]);
   (CStrided, [0; 1; 2; 3; 4], [3]);
   (CStrided, [0; 1; 2; 3; 4], [4]);
   (CStrided, [0; 1; 2; 4; 3], [1]);
   (CStrided, [0; 1; 2; 4; 3], [2]);
   (CStrided, [0; 1; 2; 4; 3], [3]);
   (CStrided, [0; 1; 2; 4; 3], [4]);
   (CStrided, [1; 2; 0; 3; 4], [1]);
   (CStrided, [1; 2; 0; 3; 4], [2]);
   (CStrided, [1; 2; 0; 3; 4], [3]);
   (CStrided, [1; 2; 0; 3; 4], [4]);
   (CCOO, [0; 1; 2; 3; 4], [1]);
   (CCOO, [0; 1; 2; 3; 4], [2]);
   (CCOO, [0; 1; 2; 3; 4], [3]);
   (CCOO, [0; 1; 2; 3; 4], [4]);
   (CCOO, [0; 1; 2; 4; 3], [1]);
   (CCOO, [0; 1; 2; 4; 3], [2]);
   (CCOO, [0; 1; 2; 4; 3], [3]);
   (CCOO, [0; 1; 2; 4; 3], [4]);
   (CCOO, [1; 2; 0; 3; 4], [1]);
   (CCOO, [1; 2; 0; 3; 4], [2]);
   (CCOO, [1; 2; 0; 3; 4], [3]);
   (CCOO, [1; 2; 0; 3; 4], [4]);
   (CFlatCOO, [0; 1; 2; 3; 4], [1]);
   (CFlatCOO, [0; 1; 2; 3; 4], [2]);
   (CFlatCOO, [0; 1; 2; 3; 4], [3]);
   (CFlatCOO, [0; 1; 2; 3; 4], [4]);
   (CFlatCOO, [0; 1; 2; 4; 3], [1]);
   (CFlatCOO, [0; 1; 2; 4; 3], [2]);
   (CFlatCOO, [0; 1; 2; 4; 3], [3]);
   (CFlatCOO, [0; 1; 2; 4; 3], [4]);
   (CFlatCOO, [1; 2; 0; 3; 4], [1]);
   (CFlatCOO, [1; 2; 0; 3; 4], [2]);
   (CFlatCOO, [1; 2; 0; 3; 4], [3]);
   (CFlatCOO, [1; 2; 0; 3; 4], [4]);
   (CCSR, [0; 1; 2; 3; 4], [1]);
   (CCSR, [0; 1; 2; 3; 4], [2]);
   (CCSR, [0; 1; 2; 3; 4], [3]);
   (CCSR, [0; 1; 2; 3; 4], [4]);
   (CCSR, [0; 1; 2; 4; 3], [1]);
   (CCSR, [0; 1; 2; 4; 3], [2]);
   (CCSR, [0; 1; 2; 4; 3], [3]);
   (CCSR, [0; 1; 2; 4; 3], [4]);
   (CCSR, [1; 2; 0; 3; 4], [1]);
   (CCSR, [1; 2; 0; 3; 4], [2]);
   (CCSR, [1; 2; 0; 3; 4], [3]);
   (CCSR, [1; 2; 0; 3; 4], [4])].

(** make_sample: test_storage.py:476-482. *)
Fixpoint make_sample (sh : list Z) (base : Z) : pyval :=
  match sh with
  | [] => VNone
  | [n] => VSeq (map (fun i => VInt (base + i + 1)) (zseq n))
  | n :: r => VSeq (map (fun i => make_sample r (base + (i + 1) * 10 ^ zlen r)) (zseq n))
  end.
Definition sample_shape (n : nat) : list Z := firstn n [2; 3; 4; 2; 3; 4].

(** test_storage.py:543-561 *)
Definition test_NtoM_DM (p : cls * list Z * list Z) : T unit :=
  let '(c, dims, part) := p in
  let seq := make_sample (sample_shape (length dims)) 0 in
  sample <-- make CStrided seq None ;;
  s <-- make_DM seq (Some dims) (Some part) c None ;;
  check (t <-- sto (var s) ;; fun h => Ok (Nat.eqb (length (shape_of t)) (length dims), h)) ;;;
  check (t <-- sto (var s) ;;
         fun h => Ok (match t with SDM _ _ _ _ _ d => Nat.eqb (length (shape_of d)) (S (length part)) | _ => false end, h)) ;;;
  check (equals (var sample) (var s)) ;;;
  check (equals (var s) (var sample)) ;;;
  done.
Definition all_pass {A} (f : A -> T unit) (l : list A) : bool :=
  forallb (fun p => match f p [] with Ok _ => true | Raise _ => false end) l.
(** test_NtoM_DM_passes *)
Check ltac:(passes (all_pass test_NtoM_DM (parameters_2_1 ++ parameters_2_2 ++ parameters_3_1
  ++ parameters_3_2 ++ parameters_3_3 ++ parameters_5_1 ++ parameters_5_2))).

(** make_slice_samples: test_storage.py:592-617. *)
Definition slice_samples (n : Z) : list ind :=
  let sl a b c := ISlice (Sl a b c) in
  [IInt 0; IInt (n / 2); IInt (n - 1); IInt (-1); IInt (- n / 2);
   sl None None None; sl None (Some (n / 2)) None; sl None (Some (n / 2)) None;
   sl (Some (n / 4)) (Some ((3 * n) / 2)) None; sl None None (Some 2); sl None None (Some 3);
   sl (Some (n / 2)) None (Some 2); sl None (Some (n / 2)) (Some 2); sl (Some (n / 4)) (Some ((3 * n) / 2)) (Some 2);
   sl (Some (n / 2)) None (Some 3); sl None (Some (n / 2)) (Some 3); sl (Some (n / 4)) (Some ((3 * n) / 2)) (Some 3);
   sl None None (Some (-1)); sl (Some (-2)) None (Some (-1)); sl None (Some 1) (Some (-1)); sl (Some (-2)) (Some 1) (Some (-1));
   sl None None (Some (-2)); sl (Some (-2)) None (Some (-2)); sl None (Some 1) (Some (-2)); sl (Some (-2)) (Some 1) (Some (-2))].
Definition all_ : ind := ISlice (Sl None None None).
Definition is_DM (x : item) : bool := match x with ISto (SDM _ _ _ _ _ _) => true | _ => false end.

(** test_storage.py:629-677, for the parameters below.  [dims1] and [dims2] are the axes k and k2 to slice. *)
Definition test_DM_slicing (dims1 dims2 : list nat) (p : cls * list Z * list Z) : T unit :=
  let '(c, dims, part) := p in
  let n := length dims in
  let sh := sample_shape n in
  let seq := make_sample sh 0 in
  strided <-- make CStrided seq None ;;
  s <-- make_DM seq (Some dims) (Some part) c None ;;
  check (equals (var strided) (var s)) ;;;
  check (equals (var s) (var strided)) ;;;
  each [XTuple [all_; ISlice (Sl None None (Some 3))]; XItem (ISlice (Sl None None (Some 2)));
        XTuple [ISlice (Sl None None (Some 2)); ISlice (Sl None None (Some 3))]; XItem (ISlice (Sl (Some 1) None (Some 2)));
        XTuple [ISlice (Sl (Some 1) None (Some 2)); ISlice (Sl (Some 2) None (Some 3))]; XItem (ISlice (Sl None None (Some (-2))))]
    (fun ix => check (equals (get (var strided) ix) (get (var s) ix))) ;;;
  each dims1 (fun k =>
    each (slice_samples (nth k sh 0)) (fun sl1 =>
      let ix := XTuple (repeat all_ k ++ [sl1]) in
      r <-- get (var s) ix ;;
      check (fun h => Ok (is_DM r, h)) ;;;
      check (equals (get (var strided) ix) (var r)) ;;;
      each (filter (Nat.ltb k) dims2) (fun k2 =>
        each (slice_samples (nth k2 sh 0)) (fun sl2 =>
          let ix := XTuple (repeat all_ k ++ [sl1] ++ repeat all_ (k2 - k - 1) ++ [sl2]) in
          r <-- get (var s) ix ;;
          expected <-- get (var strided) ix ;;
          if is_DM r then check (equals (var expected) (var r)) else check (eq (var expected) (var r)))))).


(** test_DM_slicing_2_passes *)
Check ltac:(passes (all_pass (test_DM_slicing [0; 1]%nat [0; 1]%nat) (parameters_2_1 ++ parameters_2_2))).
(** With three and five axes the test takes long: here all mappings of three axes over
    Strided and the last mapping in the list over the other classes; with five axes
    the first mapping of the list over every class, and slices along one axis. *)
Definition of_class (c : cls) (l : list (cls * list Z * list Z)) : list (cls * list Z * list Z) :=
  filter (fun p => match fst (fst p), c with
                   | CStrided, CStrided | CCOO, CCOO | CFlatCOO, CFlatCOO | CBuffer, CBuffer | CCSR, CCSR => true
                   | _, _ => false
                   end) l.
(** test_DM_slicing_3_passes *)
Check ltac:(passes (all_pass (test_DM_slicing [0; 1; 2]%nat [0; 1; 2]%nat)
  (of_class CStrided (parameters_3_1 ++ parameters_3_2)
   ++ flat_map (fun c => firstn 1 (rev (of_class c parameters_3_1)) ++ firstn 1 (rev (of_class c parameters_3_2)))
        [CCOO; CFlatCOO; CBuffer; CCSR]))).
(** test_DM_slicing_5_passes *)
Check ltac:(passes (all_pass (test_DM_slicing [0; 2; 4]%nat [])
  (flat_map (fun c => firstn 1 (of_class c parameters_5_1) ++ firstn 1 (of_class c parameters_5_2))
     [CStrided; CCOO; CFlatCOO; CBuffer; CCSR]))).

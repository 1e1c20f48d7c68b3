(** The repository's own tests, run on the model.  These are not proofs of
    properties; they check that the model behaves as gcs/tests/test_storage.py,
    gcs/tests/test_slice.py and test_gcs_basics.py expect of the code.  Every
    assertion of the test functions is transcribed, in their order.  The tests
    that only print (test_example_5d, test_example_3d, test_example_full_3d) have no assertion. *)
From Verif Require Import Py SliceTools Basics Storage Enumerate Spec.
From Coq Require Import List.
Import ListNotations.

(** The parametrized tests are evaluated while the file is compiled, which fails
    unless the result is true; they are tests, so no proof term is kept. *)
Ltac passes t := let r := eval vm_compute in t in match r with true => exact I end.

(** A test: a sequence of calls that may raise, and of checks. *)
Definition T (A : Type) : Type := heap -> res (A * heap).
Definition bindT {A B} (m : T A) (f : A -> T B) : T B :=
  fun h => '(a, h1) <- m h ;; f a h1.
Notation "x <-- m ;; f" := (bindT m (fun x => f)) (at level 60, m at next level, right associativity, only parsing).
Notation "m ;;; f" := (bindT m (fun _ => f)) (at level 60, right associativity, only parsing).
Definition done : T unit := fun h => Ok (tt, h).
Definition passes (t : T unit) : Prop := match t [] with Ok _ => True | Raise _ => False end.

Definition var (x : item) : T item := fun h => Ok (x, h).
Definition value (v : pyval) : T item := fun h => Ok (IVal v, h).
Definition sto (m : T item) : T storage :=
  fun h => '(x, h1) <- m h ;; match x with ISto s => Ok (s, h1) | IVal _ => Raise TypeError end.
Definition pure {A B} (f : heap -> A -> res B) (m : T A) : T B :=
  fun h => '(a, h1) <- m h ;; b <- f h1 a ;; Ok (b, h1).
Definition buf (m : T item) : T buffer :=
  pure (fun _ s => match s with SBuffer b => Ok b | _ => Raise TypeError end) (sto m).

Definition make (c : cls) (v : pyval) (u : option pyval) : T item :=
  fun h => '(s, h1) <- fromobject c h (SrcSeq v) (fo_unspecified u) ;; Ok (ISto s, h1).
Definition make_DM (v : pyval) (dimensions partitioning : option (list Z)) (c : cls) (u : option pyval) : T item :=
  fun h => '(s, h1) <- dm_fromobject h (SrcSeq v) (fo_unspecified u) dimensions partitioning c ;; Ok (ISto s, h1).
Definition new_list (l : list pyval) : T nat := fun h => Ok (length h, h ++ [l]).
Definition list_of (m : T item) : T nat := b <-- buf m ;; fun h => Ok (baddr b, h).
Definition new_Buffer (size offset : Z) (l : T nat) : T item :=
  a <-- l ;; fun h => b <- mk_buffer h size offset a VNone ;; Ok (ISto (SBuffer b), h).
Definition new_Strided (shape strides : list Z) (d : T item) : T item :=
  b <-- buf d ;; fun h => t <- mk_strided shape strides b ;; Ok (ISto (SStrided t), h).
Definition new_COO (shape : list Z) (i d : T item) : T item :=
  ind <-- sto i ;; b <-- buf d ;;
  fun h => match ind with SStrided t => s <- mk_coo shape t b ;; Ok (ISto s, h) | _ => Raise TypeError end.
Definition new_FlatCOO (shape : list Z) (i d : T item) : T item :=
  f <-- buf i ;; b <-- buf d ;; fun h => s <- mk_flatcoo shape f b ;; Ok (ISto s, h).
Definition new_CSR (shape : list Z) (r c d : T item) : T item :=
  crow <-- buf r ;; col <-- buf c ;; b <-- buf d ;; fun h => s <- mk_csr shape crow col b ;; Ok (ISto s, h).
Definition new_DM (shape : list Z) (rd rs : list (list Z)) (ro : list Z) (d : T item) : T item :=
  s <-- sto d ;; fun h => t <- mk_dm shape rd rs ro s ;; Ok (ISto t, h).
Definition get (m : T item) (ix : pyindex) : T item := s <-- sto m ;; fun h => getitem h s ix.
Definition set (m : T item) (ix : pyindex) (v : pyval) : T unit :=
  s <-- sto m ;; fun h => match setitem h s ix (SrcSeq v) with (h1, Ok _) => Ok (tt, h1) | (_, Raise e) => Raise e end.
Definition copied (m : T item) (u : option pyval) : T item :=
  s <-- sto m ;; fun h => '(t, h1) <- copy h s u ;; Ok (ISto t, h1).
Definition to (c : cls) (m : T item) (u : option pyval) : T item :=
  s <-- sto m ;; fun h => '(t, h1) <- as_storage c h s u ;; Ok (ISto t, h1).
Definition to_DM (m : T item) (c : cls) : T item :=
  s <-- sto m ;; fun h => '(t, h1) <- as_DM h s None None c None ;; Ok (ISto t, h1).
Definition unspecified (m : T item) : T item := s <-- sto m ;; value (unspecified_of s).
Definition size (m : T item) : T item := s <-- sto m ;; fun h => n <- size_of s ;; Ok (IVal (VInt n), h).
Definition shape (m : T item) : T item := s <-- sto m ;; value (VSeq (map VInt (shape_of s))).
Definition len (m : T item) : T item := s <-- sto m ;; fun h => n <- len_of s ;; Ok (IVal (VInt n), h).

(** x == y and x != y of arrays and of values. *)
Definition eq (m n : T item) : T bool :=
  x <-- m ;; y <-- n ;;
  fun h => b <- match x, y with
                | IVal v, IVal w => Ok (veqb v w)
                | ISto s, ISto t => storage_eq h s t
                | _, _ => Ok false
                end ;; Ok (b, h).
Definition ne (m n : T item) : T bool :=
  x <-- m ;; y <-- n ;;
  fun h => b <- match x, y with
                | IVal v, IVal w => Ok (negb (veqb v w))
                | ISto s, ISto t => storage_ne h s t
                | _, _ => Ok true
                end ;; Ok (b, h).
Definition full (m : T item) : T bool := pure (fun _ s => is_full s) (sto m).
Definition not_ (m : T bool) : T bool := pure (fun _ b => Ok (negb b)) m.
Definition equals (m n : T item) : T bool := s <-- sto m ;; t <-- sto n ;; fun h => b <- equal h s (SrcSto t) ;; Ok (b, h).
Definition equals_list (m : T item) (v : pyval) : T bool := s <-- sto m ;; fun h => b <- equal h s (SrcSeq v) ;; Ok (b, h).
Fixpoint all2 {A B} (f : A -> B -> bool) (l : list A) (m : list B) : bool :=
  match l, m with
  | [], [] => true
  | a :: l, b :: m => f a b && all2 f l m
  | _, _ => false
  end.
Definition lists (m : T item) (l : list (key * pyval)) : T bool :=
  s <-- sto m ;; fun h => e <- elements h s ;;
    Ok (all2 (fun a b => key_eqb (fst a) (fst b) && veqb (snd a) (snd b)) e l, h).
(** list(m) == n.data[lo:hi] *)
Definition iterates (m n : T item) (lo hi : nat) : T bool :=
  b <-- buf m ;; c <-- buf n ;;
  fun h => l <- buf_values h b ;; d <- cell h (baddr c) ;; Ok (all2 veqb l (firstn (hi - lo) (skipn lo d)), h).
Definition check (m : T bool) : T unit :=
  b <-- m ;; fun h => if b then Ok (tt, h) else Raise AssertionError.
Fixpoint each {A} (l : list A) (f : A -> T unit) : T unit :=
  match l with [] => done | x :: l => f x ;;; each l f end.

(** test_storage.py:6-41 *)
Definition test_Buffer : T unit :=
  s <-- (make CBuffer (VSeq [(VSeq [(VInt 1); (VInt 2); (VInt 3)]); (VSeq [(VInt 4); (VInt 5); (VInt 6)])]) None) ;;
  s2 <-- (new_Buffer 6 0 (new_list [(VInt 1); (VInt 2); (VInt 3); (VInt 4); (VInt 5); (VInt 6)])) ;;
  check (eq (var s) (var s2)) ;;;
  check (eq (get (var s) (XItem (IInt 0))) (value (VInt 1))) ;;;
  check (eq (get (var s) (XItem (IInt 1))) (value (VInt 2))) ;;;
  check (eq (get (var s) (XItem (IInt 2))) (value (VInt 3))) ;;;
  check (eq (get (var s) (XItem (IInt 3))) (value (VInt 4))) ;;;
  check (eq (get (var s) (XItem (IInt 4))) (value (VInt 5))) ;;;
  check (eq (get (var s) (XItem (IInt 5))) (value (VInt 6))) ;;;
  set (var s2) (XItem (IInt 3)) (VInt 22) ;;;
  check (eq (get (var s2) (XItem (IInt 3))) (value (VInt 22))) ;;;
  check (ne (var s) (var s2)) ;;;
  check (eq (size (var s)) (value (VInt 6))) ;;;
  check (eq (shape (var s)) (value (VSeq [(VInt 6)]))) ;;;
  check (eq (get (var s) (XItem (ISlice (Sl None (Some 2) None)))) (new_Buffer 2 0 (list_of (var s)))) ;;;
  check (eq (len (get (var s) (XItem (ISlice (Sl None (Some 2) None))))) (value (VInt 2))) ;;;
  check (eq (size (get (var s) (XItem (ISlice (Sl None (Some 2) None))))) (value (VInt 2))) ;;;
  check (eq (shape (get (var s) (XItem (ISlice (Sl None (Some 2) None))))) (value (VSeq [(VInt 2)]))) ;;;
  check (eq (len (get (var s) (XItem (ISlice (Sl (Some 1) (Some 2) None))))) (value (VInt 1))) ;;;
  check (iterates (get (var s) (XItem (ISlice (Sl None (Some 2) None)))) (var s) 0 2) ;;;
  check (iterates (get (var s) (XItem (ISlice (Sl (Some 1) (Some 2) None)))) (var s) 1 2) ;;;
  check (eq (get (get (var s) (XItem (ISlice (Sl (Some 2) (Some 5) None)))) (XItem (IInt 0))) (value (VInt 3))) ;;;
  check (eq (get (get (var s) (XItem (ISlice (Sl (Some 2) (Some 5) None)))) (XItem (IInt 1))) (value (VInt 4))) ;;;
  check (eq (get (get (var s) (XItem (ISlice (Sl (Some 2) (Some 5) None)))) (XItem (IInt 2))) (value (VInt 5))) ;;;
  check (eq (get (get (var s) (XItem (ISlice (Sl (Some 2) (Some 5) None)))) (XItem (IInt 3))) (value (VInt 6))) ;;;
  check (eq (get (get (var s) (XItem (ISlice (Sl (Some 2) (Some 5) None)))) (XItem (IInt (-1)))) (value (VInt 2))) ;;;
  check (eq (get (get (var s) (XItem (ISlice (Sl (Some 2) (Some 5) None)))) (XItem (IInt (-2)))) (value (VInt 1))) ;;;
  check (equals_list (get (get (var s) (XItem (ISlice (Sl (Some 2) None None)))) (XItem (ISlice (Sl None None None)))) (VSeq [(VInt 3); (VInt 4); (VInt 5); (VInt 6)])) ;;;
  check (eq (size (get (get (var s) (XItem (ISlice (Sl (Some 2) None None)))) (XItem (ISlice (Sl None None None))))) (value (VInt 4))) ;;;
  check (equals_list (get (get (var s) (XItem (ISlice (Sl (Some 2) None None)))) (XItem (ISlice (Sl (Some (-1)) None None)))) (VSeq [(VInt 2); (VInt 3); (VInt 4); (VInt 5); (VInt 6)])) ;;;
  check (eq (size (get (get (var s) (XItem (ISlice (Sl (Some 2) None None)))) (XItem (ISlice (Sl (Some (-1)) None None))))) (value (VInt 5))) ;;;
  check (equals_list (get (get (var s) (XItem (ISlice (Sl (Some 2) (Some 4) None)))) (XItem (ISlice (Sl (Some (-1)) None None)))) (VSeq [(VInt 2); (VInt 3); (VInt 4)])) ;;;
  check (equals_list (get (get (var s) (XItem (ISlice (Sl (Some 2) (Some 4) None)))) (XItem (ISlice (Sl (Some (-2)) None None)))) (VSeq [(VInt 1); (VInt 2); (VInt 3); (VInt 4)])) ;;;
  check (equals_list (get (get (var s) (XItem (ISlice (Sl (Some 2) (Some 4) None)))) (XItem (ISlice (Sl (Some (-2)) (Some 2) None)))) (VSeq [(VInt 1); (VInt 2); (VInt 3); (VInt 4)])) ;;;
  check (equals_list (get (get (var s) (XItem (ISlice (Sl (Some 2) (Some 4) None)))) (XItem (ISlice (Sl (Some (-2)) (Some 3) None)))) (VSeq [(VInt 1); (VInt 2); (VInt 3); (VInt 4); (VInt 5)])) ;;;
  check (equals_list (get (get (var s) (XItem (ISlice (Sl (Some 2) (Some 4) None)))) (XItem (ISlice (Sl (Some (-2)) (Some 1) None)))) (VSeq [(VInt 1); (VInt 2); (VInt 3)])) ;;;
  done.
Example test_Buffer_passes : passes test_Buffer.
Proof. vm_compute. reflexivity. Qed.

(** test_storage.py:44-92 *)
Definition test_Strided : T unit :=
  s <-- (make CStrided (VSeq [(VSeq [(VInt 1); (VInt 2); (VInt 3)]); (VSeq [(VInt 4); (VInt 5); (VInt 6)])]) None) ;;
  s2 <-- (new_Strided [2; 3] [3; 1] (make CBuffer (VSeq [(VInt 1); (VInt 2); (VInt 3); (VInt 4); (VInt 5); (VInt 6)]) None)) ;;
  check (eq (var s) (var s2)) ;;;
  check (eq (get (var s) (XTuple [IInt 0; IInt 0])) (value (VInt 1))) ;;;
  check (eq (get (var s) (XTuple [IInt 0; IInt 1])) (value (VInt 2))) ;;;
  check (eq (get (var s) (XTuple [IInt 0; IInt 2])) (value (VInt 3))) ;;;
  check (eq (get (var s) (XTuple [IInt 1; IInt 0])) (value (VInt 4))) ;;;
  check (eq (get (var s) (XTuple [IInt 1; IInt 1])) (value (VInt 5))) ;;;
  check (eq (get (var s) (XTuple [IInt 1; IInt 2])) (value (VInt 6))) ;;;
  check (eq (shape (var s)) (value (VSeq [(VInt 2); (VInt 3)]))) ;;;
  set (var s2) (XTuple [IInt 1; IInt 1]) (VInt 22) ;;;
  check (eq (get (var s2) (XTuple [IInt 1; IInt 1])) (value (VInt 22))) ;;;
  check (ne (var s) (var s2)) ;;;
  check (equals_list (get (var s) (XItem (IInt 0))) (VSeq [(VInt 1); (VInt 2); (VInt 3)])) ;;;
  check (eq (size (get (var s) (XItem (IInt 0)))) (value (VInt 3))) ;;;
  check (eq (shape (get (var s) (XItem (IInt 0)))) (value (VSeq [(VInt 3)]))) ;;;
  check (equals_list (get (var s) (XItem (IInt 1))) (VSeq [(VInt 4); (VInt 5); (VInt 6)])) ;;;
  check (equals_list (get (var s) (XItem (IInt (-1)))) (VSeq [(VInt 4); (VInt 5); (VInt 6)])) ;;;
  check (equals_list (get (var s) (XTuple [ISlice (Sl None None None); IInt 0])) (VSeq [(VInt 1); (VInt 4)])) ;;;
  check (equals_list (get (var s) (XTuple [ISlice (Sl None None None); IInt 1])) (VSeq [(VInt 2); (VInt 5)])) ;;;
  check (equals_list (get (var s) (XTuple [ISlice (Sl None None None); IInt 2])) (VSeq [(VInt 3); (VInt 6)])) ;;;
  check (equals_list (get (var s) (XTuple [ISlice (Sl None None None); IInt (-1)])) (VSeq [(VInt 3); (VInt 6)])) ;;;
  check (equals_list (get (var s) (XTuple [ISlice (Sl None None None); IInt (-2)])) (VSeq [(VInt 2); (VInt 5)])) ;;;
  check (equals_list (get (var s) (XItem (ISlice (Sl (Some 0) None None)))) (VSeq [(VSeq [(VInt 1); (VInt 2); (VInt 3)]); (VSeq [(VInt 4); (VInt 5); (VInt 6)])])) ;;;
  check (equals_list (get (var s) (XItem (ISlice (Sl (Some 1) None None)))) (VSeq [(VSeq [(VInt 4); (VInt 5); (VInt 6)])])) ;;;
  check (equals_list (get (var s) (XItem (ISlice (Sl None None (Some (-1)))))) (VSeq [(VSeq [(VInt 4); (VInt 5); (VInt 6)]); (VSeq [(VInt 1); (VInt 2); (VInt 3)])])) ;;;
  check (equals_list (get (var s) (XItem (ISlice (Sl (Some (-2)) None (Some (-1)))))) (VSeq [(VSeq [(VInt 1); (VInt 2); (VInt 3)])])) ;;;
  check (equals_list (get (var s) (XTuple [ISlice (Sl None None None); ISlice (Sl (Some 0) None None)])) (VSeq [(VSeq [(VInt 1); (VInt 2); (VInt 3)]); (VSeq [(VInt 4); (VInt 5); (VInt 6)])])) ;;;
  check (equals_list (get (var s) (XTuple [ISlice (Sl None None None); ISlice (Sl (Some 1) None None)])) (VSeq [(VSeq [(VInt 2); (VInt 3)]); (VSeq [(VInt 5); (VInt 6)])])) ;;;
  check (equals_list (get (var s) (XTuple [ISlice (Sl None None None); ISlice (Sl (Some 2) None None)])) (VSeq [(VSeq [(VInt 3)]); (VSeq [(VInt 6)])])) ;;;
  check (equals_list (get (var s) (XTuple [ISlice (Sl None None None); ISlice (Sl (Some 0) (Some 2) None)])) (VSeq [(VSeq [(VInt 1); (VInt 2)]); (VSeq [(VInt 4); (VInt 5)])])) ;;;
  check (equals_list (get (var s) (XTuple [ISlice (Sl None None None); ISlice (Sl None (Some (-1)) None)])) (VSeq [(VSeq [(VInt 1); (VInt 2)]); (VSeq [(VInt 4); (VInt 5)])])) ;;;
  check (equals_list (get (var s) (XTuple [ISlice (Sl None None None); ISlice (Sl (Some 1) (Some 2) None)])) (VSeq [(VSeq [(VInt 2)]); (VSeq [(VInt 5)])])) ;;;
  check (equals_list (get (var s) (XTuple [ISlice (Sl None None None); ISlice (Sl None None (Some 2))])) (VSeq [(VSeq [(VInt 1); (VInt 3)]); (VSeq [(VInt 4); (VInt 6)])])) ;;;
  check (equals_list (get (var s) (XTuple [ISlice (Sl None None None); ISlice (Sl None None (Some (-1)))])) (VSeq [(VSeq [(VInt 3); (VInt 2); (VInt 1)]); (VSeq [(VInt 6); (VInt 5); (VInt 4)])])) ;;;
  check (equals_list (get (var s) (XTuple [ISlice (Sl None None None); ISlice (Sl None None (Some (-2)))])) (VSeq [(VSeq [(VInt 3); (VInt 1)]); (VSeq [(VInt 6); (VInt 4)])])) ;;;
  check (equals_list (get (var s) (XTuple [ISlice (Sl None None None); ISlice (Sl (Some (-2)) None (Some (-1)))])) (VSeq [(VSeq [(VInt 2); (VInt 1)]); (VSeq [(VInt 5); (VInt 4)])])) ;;;
  check (equals (copied (var s) None) (var s)) ;;;
  check (equals (var s) (copied (var s) None)) ;;;
  check (eq (var s) (copied (var s) None)) ;;;
  check (equals (copied (var s) (Some (VInt 0))) (var s)) ;;;
  check (ne (var s) (copied (var s) (Some (VInt 0)))) ;;;
  done.
Example test_Strided_passes : passes test_Strided.
Proof. vm_compute. reflexivity. Qed.

(** test_storage.py:95-165 *)
Definition test_COO : T unit :=
  s <-- (make CCOO (VSeq [(VSeq [(VInt 1); (VInt 2); (VInt 3)]); (VSeq [(VInt 4); (VInt 5); (VInt 6)])]) None) ;;
  s2 <-- (new_COO [2; 3] (make CStrided (VSeq [(VSeq [(VInt 0); (VInt 0); (VInt 0); (VInt 1); (VInt 1); (VInt 1)]); (VSeq [(VInt 0); (VInt 1); (VInt 2); (VInt 0); (VInt 1); (VInt 2)])]) None) (make CBuffer (VSeq [(VInt 1); (VInt 2); (VInt 3); (VInt 4); (VInt 5); (VInt 6)]) None)) ;;
  check (eq (var s) (var s2)) ;;;
  check (full (var s)) ;;;
  check (eq (get (var s) (XTuple [IInt 0; IInt 0])) (value (VInt 1))) ;;;
  check (eq (get (var s) (XTuple [IInt 0; IInt 1])) (value (VInt 2))) ;;;
  check (eq (get (var s) (XTuple [IInt 0; IInt 2])) (value (VInt 3))) ;;;
  check (eq (get (var s) (XTuple [IInt 1; IInt 0])) (value (VInt 4))) ;;;
  check (eq (get (var s) (XTuple [IInt 1; IInt 1])) (value (VInt 5))) ;;;
  check (eq (get (var s) (XTuple [IInt 1; IInt 2])) (value (VInt 6))) ;;;
  check (eq (shape (var s)) (value (VSeq [(VInt 2); (VInt 3)]))) ;;;
  check (equals_list (get (var s) (XItem (IInt 0))) (VSeq [(VInt 1); (VInt 2); (VInt 3)])) ;;;
  check (eq (size (get (var s) (XItem (IInt 0)))) (value (VInt 3))) ;;;
  check (eq (shape (get (var s) (XItem (IInt 0)))) (value (VSeq [(VInt 3)]))) ;;;
  check (equals_list (get (var s) (XItem (IInt 1))) (VSeq [(VInt 4); (VInt 5); (VInt 6)])) ;;;
  check (equals_list (get (var s) (XItem (IInt (-1)))) (VSeq [(VInt 4); (VInt 5); (VInt 6)])) ;;;
  check (equals_list (get (var s) (XTuple [ISlice (Sl None None None); IInt 0])) (VSeq [(VInt 1); (VInt 4)])) ;;;
  check (equals_list (get (var s) (XTuple [ISlice (Sl None None None); IInt 1])) (VSeq [(VInt 2); (VInt 5)])) ;;;
  check (equals_list (get (var s) (XTuple [ISlice (Sl None None None); IInt 2])) (VSeq [(VInt 3); (VInt 6)])) ;;;
  check (equals_list (get (var s) (XTuple [ISlice (Sl None None None); IInt (-1)])) (VSeq [(VInt 3); (VInt 6)])) ;;;
  check (equals_list (get (var s) (XTuple [ISlice (Sl None None None); IInt (-2)])) (VSeq [(VInt 2); (VInt 5)])) ;;;
  check (equals_list (get (var s) (XItem (ISlice (Sl (Some 0) None None)))) (VSeq [(VSeq [(VInt 1); (VInt 2); (VInt 3)]); (VSeq [(VInt 4); (VInt 5); (VInt 6)])])) ;;;
  check (equals_list (get (var s) (XItem (ISlice (Sl (Some 1) None None)))) (VSeq [(VSeq [(VInt 4); (VInt 5); (VInt 6)])])) ;;;
  check (equals_list (get (var s) (XItem (ISlice (Sl None None (Some (-1)))))) (VSeq [(VSeq [(VInt 4); (VInt 5); (VInt 6)]); (VSeq [(VInt 1); (VInt 2); (VInt 3)])])) ;;;
  check (equals_list (get (var s) (XItem (ISlice (Sl (Some (-2)) None (Some (-1)))))) (VSeq [(VSeq [(VInt 1); (VInt 2); (VInt 3)])])) ;;;
  check (equals_list (get (var s) (XTuple [ISlice (Sl None None None); ISlice (Sl (Some 0) None None)])) (VSeq [(VSeq [(VInt 1); (VInt 2); (VInt 3)]); (VSeq [(VInt 4); (VInt 5); (VInt 6)])])) ;;;
  check (equals_list (get (var s) (XTuple [ISlice (Sl None None None); ISlice (Sl (Some 1) None None)])) (VSeq [(VSeq [(VInt 2); (VInt 3)]); (VSeq [(VInt 5); (VInt 6)])])) ;;;
  check (equals_list (get (var s) (XTuple [ISlice (Sl None None None); ISlice (Sl (Some 2) None None)])) (VSeq [(VSeq [(VInt 3)]); (VSeq [(VInt 6)])])) ;;;
  check (equals_list (get (var s) (XTuple [ISlice (Sl None None None); ISlice (Sl (Some 0) (Some 2) None)])) (VSeq [(VSeq [(VInt 1); (VInt 2)]); (VSeq [(VInt 4); (VInt 5)])])) ;;;
  check (equals_list (get (var s) (XTuple [ISlice (Sl None None None); ISlice (Sl None (Some (-1)) None)])) (VSeq [(VSeq [(VInt 1); (VInt 2)]); (VSeq [(VInt 4); (VInt 5)])])) ;;;
  check (equals_list (get (var s) (XTuple [ISlice (Sl None None None); ISlice (Sl (Some 1) (Some 2) None)])) (VSeq [(VSeq [(VInt 2)]); (VSeq [(VInt 5)])])) ;;;
  check (equals_list (get (var s) (XTuple [ISlice (Sl None None None); ISlice (Sl None None (Some 2))])) (VSeq [(VSeq [(VInt 1); (VInt 3)]); (VSeq [(VInt 4); (VInt 6)])])) ;;;
  check (equals_list (get (var s) (XTuple [ISlice (Sl None None None); ISlice (Sl None None (Some (-1)))])) (VSeq [(VSeq [(VInt 3); (VInt 2); (VInt 1)]); (VSeq [(VInt 6); (VInt 5); (VInt 4)])])) ;;;
  check (equals_list (get (var s) (XTuple [ISlice (Sl None None None); ISlice (Sl None None (Some (-2)))])) (VSeq [(VSeq [(VInt 3); (VInt 1)]); (VSeq [(VInt 6); (VInt 4)])])) ;;;
  check (equals_list (get (var s) (XTuple [ISlice (Sl None None None); ISlice (Sl (Some (-2)) None (Some (-1)))])) (VSeq [(VSeq [(VInt 2); (VInt 1)]); (VSeq [(VInt 5); (VInt 4)])])) ;;;
  set (var s) (XTuple [IInt 1; IInt 1]) (VInt 22) ;;;
  check (eq (get (var s) (XTuple [IInt 1; IInt 1])) (value (VInt 22))) ;;;
  check (ne (var s) (var s2)) ;;;
  s <-- (make CCOO (VSeq [(VSeq [(VInt 1); VNone; (VInt 3)]); (VSeq [VNone; (VInt 5); VNone])]) None) ;;
  s2 <-- (new_COO [2; 3] (make CStrided (VSeq [(VSeq [(VInt 0); (VInt 0); (VInt 1)]); (VSeq [(VInt 0); (VInt 2); (VInt 1)])]) None) (make CBuffer (VSeq [(VInt 1); (VInt 3); (VInt 5)]) None)) ;;
  check (eq (var s) (var s2)) ;;;
  check (not_ (full (var s))) ;;;
  check (eq (get (var s) (XTuple [IInt 0; IInt 0])) (value (VInt 1))) ;;;
  check (eq (get (var s) (XTuple [IInt 0; IInt 1])) (unspecified (var s))) ;;;
  check (eq (get (var s) (XTuple [IInt 0; IInt 2])) (value (VInt 3))) ;;;
  check (eq (get (var s) (XTuple [IInt 1; IInt 0])) (unspecified (var s))) ;;;
  check (eq (get (var s) (XTuple [IInt 1; IInt 1])) (value (VInt 5))) ;;;
  check (eq (get (var s) (XTuple [IInt 1; IInt 2])) (unspecified (var s))) ;;;
  s <-- (make CCOO (VSeq [(VSeq [(VInt 1); (VInt 0); (VInt 3)]); (VSeq [(VInt 0); (VInt 5); (VInt 0)])]) (Some (VInt 0))) ;;
  s2 <-- (new_COO [2; 3] (make CStrided (VSeq [(VSeq [(VInt 0); (VInt 0); (VInt 1)]); (VSeq [(VInt 0); (VInt 2); (VInt 1)])]) None) (make CBuffer (VSeq [(VInt 1); (VInt 3); (VInt 5)]) (Some (VInt 0)))) ;;
  check (eq (var s) (var s2)) ;;;
  check (not_ (full (var s))) ;;;
  check (eq (get (var s) (XTuple [IInt 0; IInt 0])) (value (VInt 1))) ;;;
  check (eq (get (var s) (XTuple [IInt 0; IInt 1])) (unspecified (var s))) ;;;
  check (eq (get (var s) (XTuple [IInt 0; IInt 2])) (value (VInt 3))) ;;;
  check (eq (get (var s) (XTuple [IInt 1; IInt 0])) (unspecified (var s))) ;;;
  check (eq (get (var s) (XTuple [IInt 1; IInt 1])) (value (VInt 5))) ;;;
  check (eq (get (var s) (XTuple [IInt 1; IInt 2])) (unspecified (var s))) ;;;
  done.
Example test_COO_passes : passes test_COO.
Proof. vm_compute. reflexivity. Qed.

(** test_storage.py:168-237 *)
Definition test_FlatCOO : T unit :=
  s <-- (make CFlatCOO (VSeq [(VSeq [(VInt 1); (VInt 2); (VInt 3)]); (VSeq [(VInt 4); (VInt 5); (VInt 6)])]) None) ;;
  s2 <-- (new_FlatCOO [2; 3] (make CBuffer (VSeq [(VInt 0); (VInt 1); (VInt 2); (VInt 3); (VInt 4); (VInt 5)]) None) (make CBuffer (VSeq [(VInt 1); (VInt 2); (VInt 3); (VInt 4); (VInt 5); (VInt 6)]) None)) ;;
  check (eq (var s) (var s2)) ;;;
  check (full (var s)) ;;;
  check (eq (get (var s) (XTuple [IInt 0; IInt 0])) (value (VInt 1))) ;;;
  check (eq (get (var s) (XTuple [IInt 0; IInt 1])) (value (VInt 2))) ;;;
  check (eq (get (var s) (XTuple [IInt 0; IInt 2])) (value (VInt 3))) ;;;
  check (eq (get (var s) (XTuple [IInt 1; IInt 0])) (value (VInt 4))) ;;;
  check (eq (get (var s) (XTuple [IInt 1; IInt 1])) (value (VInt 5))) ;;;
  check (eq (get (var s) (XTuple [IInt 1; IInt 2])) (value (VInt 6))) ;;;
  check (eq (shape (var s)) (value (VSeq [(VInt 2); (VInt 3)]))) ;;;
  check (equals_list (get (var s) (XItem (IInt 0))) (VSeq [(VInt 1); (VInt 2); (VInt 3)])) ;;;
  check (eq (size (get (var s) (XItem (IInt 0)))) (value (VInt 3))) ;;;
  check (eq (shape (get (var s) (XItem (IInt 0)))) (value (VSeq [(VInt 3)]))) ;;;
  check (equals_list (get (var s) (XItem (IInt 1))) (VSeq [(VInt 4); (VInt 5); (VInt 6)])) ;;;
  check (equals_list (get (var s) (XItem (IInt (-1)))) (VSeq [(VInt 4); (VInt 5); (VInt 6)])) ;;;
  check (equals_list (get (var s) (XTuple [ISlice (Sl None None None); IInt 0])) (VSeq [(VInt 1); (VInt 4)])) ;;;
  check (equals_list (get (var s) (XTuple [ISlice (Sl None None None); IInt 1])) (VSeq [(VInt 2); (VInt 5)])) ;;;
  check (equals_list (get (var s) (XTuple [ISlice (Sl None None None); IInt 2])) (VSeq [(VInt 3); (VInt 6)])) ;;;
  check (equals_list (get (var s) (XTuple [ISlice (Sl None None None); IInt (-1)])) (VSeq [(VInt 3); (VInt 6)])) ;;;
  check (equals_list (get (var s) (XTuple [ISlice (Sl None None None); IInt (-2)])) (VSeq [(VInt 2); (VInt 5)])) ;;;
  check (equals_list (get (var s) (XItem (ISlice (Sl (Some 0) None None)))) (VSeq [(VSeq [(VInt 1); (VInt 2); (VInt 3)]); (VSeq [(VInt 4); (VInt 5); (VInt 6)])])) ;;;
  check (equals_list (get (var s) (XItem (ISlice (Sl (Some 1) None None)))) (VSeq [(VSeq [(VInt 4); (VInt 5); (VInt 6)])])) ;;;
  check (equals_list (get (var s) (XItem (ISlice (Sl None None (Some (-1)))))) (VSeq [(VSeq [(VInt 4); (VInt 5); (VInt 6)]); (VSeq [(VInt 1); (VInt 2); (VInt 3)])])) ;;;
  check (equals_list (get (var s) (XItem (ISlice (Sl (Some (-2)) None (Some (-1)))))) (VSeq [(VSeq [(VInt 1); (VInt 2); (VInt 3)])])) ;;;
  check (equals_list (get (var s) (XTuple [ISlice (Sl None None None); ISlice (Sl (Some 0) None None)])) (VSeq [(VSeq [(VInt 1); (VInt 2); (VInt 3)]); (VSeq [(VInt 4); (VInt 5); (VInt 6)])])) ;;;
  check (equals_list (get (var s) (XTuple [ISlice (Sl None None None); ISlice (Sl (Some 1) None None)])) (VSeq [(VSeq [(VInt 2); (VInt 3)]); (VSeq [(VInt 5); (VInt 6)])])) ;;;
  check (equals_list (get (var s) (XTuple [ISlice (Sl None None None); ISlice (Sl (Some 2) None None)])) (VSeq [(VSeq [(VInt 3)]); (VSeq [(VInt 6)])])) ;;;
  check (equals_list (get (var s) (XTuple [ISlice (Sl None None None); ISlice (Sl (Some 0) (Some 2) None)])) (VSeq [(VSeq [(VInt 1); (VInt 2)]); (VSeq [(VInt 4); (VInt 5)])])) ;;;
  check (equals_list (get (var s) (XTuple [ISlice (Sl None None None); ISlice (Sl None (Some (-1)) None)])) (VSeq [(VSeq [(VInt 1); (VInt 2)]); (VSeq [(VInt 4); (VInt 5)])])) ;;;
  check (equals_list (get (var s) (XTuple [ISlice (Sl None None None); ISlice (Sl (Some 1) (Some 2) None)])) (VSeq [(VSeq [(VInt 2)]); (VSeq [(VInt 5)])])) ;;;
  check (equals_list (get (var s) (XTuple [ISlice (Sl None None None); ISlice (Sl None None (Some 2))])) (VSeq [(VSeq [(VInt 1); (VInt 3)]); (VSeq [(VInt 4); (VInt 6)])])) ;;;
  check (equals_list (get (var s) (XTuple [ISlice (Sl None None None); ISlice (Sl None None (Some (-1)))])) (VSeq [(VSeq [(VInt 3); (VInt 2); (VInt 1)]); (VSeq [(VInt 6); (VInt 5); (VInt 4)])])) ;;;
  check (equals_list (get (var s) (XTuple [ISlice (Sl None None None); ISlice (Sl None None (Some (-2)))])) (VSeq [(VSeq [(VInt 3); (VInt 1)]); (VSeq [(VInt 6); (VInt 4)])])) ;;;
  check (equals_list (get (var s) (XTuple [ISlice (Sl None None None); ISlice (Sl (Some (-2)) None (Some (-1)))])) (VSeq [(VSeq [(VInt 2); (VInt 1)]); (VSeq [(VInt 5); (VInt 4)])])) ;;;
  set (var s) (XTuple [IInt 1; IInt 1]) (VInt 22) ;;;
  check (eq (get (var s) (XTuple [IInt 1; IInt 1])) (value (VInt 22))) ;;;
  check (ne (var s) (var s2)) ;;;
  s <-- (make CFlatCOO (VSeq [(VSeq [(VInt 1); VNone; (VInt 3)]); (VSeq [VNone; (VInt 5); VNone])]) None) ;;
  s2 <-- (new_FlatCOO [2; 3] (make CBuffer (VSeq [(VInt 0); (VInt 2); (VInt 4)]) None) (make CBuffer (VSeq [(VInt 1); (VInt 3); (VInt 5)]) None)) ;;
  check (eq (var s) (var s2)) ;;;
  check (not_ (full (var s))) ;;;
  check (eq (get (var s) (XTuple [IInt 0; IInt 0])) (value (VInt 1))) ;;;
  check (eq (get (var s) (XTuple [IInt 0; IInt 1])) (unspecified (var s))) ;;;
  check (eq (get (var s) (XTuple [IInt 0; IInt 2])) (value (VInt 3))) ;;;
  check (eq (get (var s) (XTuple [IInt 1; IInt 0])) (unspecified (var s))) ;;;
  check (eq (get (var s) (XTuple [IInt 1; IInt 1])) (value (VInt 5))) ;;;
  check (eq (get (var s) (XTuple [IInt 1; IInt 2])) (unspecified (var s))) ;;;
  s <-- (make CFlatCOO (VSeq [(VSeq [(VInt 1); (VInt 0); (VInt 3)]); (VSeq [(VInt 0); (VInt 5); (VInt 0)])]) (Some (VInt 0))) ;;
  s2 <-- (new_FlatCOO [2; 3] (make CBuffer (VSeq [(VInt 0); (VInt 2); (VInt 4)]) None) (make CBuffer (VSeq [(VInt 1); (VInt 3); (VInt 5)]) (Some (VInt 0)))) ;;
  check (eq (var s) (var s2)) ;;;
  check (not_ (full (var s))) ;;;
  check (eq (get (var s) (XTuple [IInt 0; IInt 0])) (value (VInt 1))) ;;;
  check (eq (get (var s) (XTuple [IInt 0; IInt 1])) (unspecified (var s))) ;;;
  check (eq (get (var s) (XTuple [IInt 0; IInt 2])) (value (VInt 3))) ;;;
  check (eq (get (var s) (XTuple [IInt 1; IInt 0])) (unspecified (var s))) ;;;
  check (eq (get (var s) (XTuple [IInt 1; IInt 1])) (value (VInt 5))) ;;;
  check (eq (get (var s) (XTuple [IInt 1; IInt 2])) (unspecified (var s))) ;;;
  done.
Example test_FlatCOO_passes : passes test_FlatCOO.
Proof. vm_compute. reflexivity. Qed.

(** test_storage.py:240-317 *)
Definition test_CSR : T unit :=
  s <-- (make CCSR (VSeq [(VSeq [(VInt 1); (VInt 2); (VInt 3)]); (VSeq [(VInt 4); (VInt 5); (VInt 6)])]) None) ;;
  s2 <-- (new_CSR [2; 3] (make CBuffer (VSeq [(VInt 0); (VInt 3); (VInt 6)]) None) (make CBuffer (VSeq [(VInt 0); (VInt 1); (VInt 2); (VInt 0); (VInt 1); (VInt 2)]) None) (make CBuffer (VSeq [(VInt 1); (VInt 2); (VInt 3); (VInt 4); (VInt 5); (VInt 6)]) None)) ;;
  check (eq (var s) (var s2)) ;;;
  check (full (var s)) ;;;
  check (eq (get (var s) (XTuple [IInt 0; IInt 0])) (value (VInt 1))) ;;;
  check (eq (get (var s) (XTuple [IInt 0; IInt 1])) (value (VInt 2))) ;;;
  check (eq (get (var s) (XTuple [IInt 0; IInt 2])) (value (VInt 3))) ;;;
  check (eq (get (var s) (XTuple [IInt 1; IInt 0])) (value (VInt 4))) ;;;
  check (eq (get (var s) (XTuple [IInt 1; IInt 1])) (value (VInt 5))) ;;;
  check (eq (get (var s) (XTuple [IInt 1; IInt 2])) (value (VInt 6))) ;;;
  check (eq (shape (var s)) (value (VSeq [(VInt 2); (VInt 3)]))) ;;;
  check (equals_list (get (var s) (XItem (IInt 0))) (VSeq [(VInt 1); (VInt 2); (VInt 3)])) ;;;
  check (eq (size (get (var s) (XItem (IInt 0)))) (value (VInt 3))) ;;;
  check (eq (shape (get (var s) (XItem (IInt 0)))) (value (VSeq [(VInt 3)]))) ;;;
  check (equals_list (get (var s) (XItem (IInt 1))) (VSeq [(VInt 4); (VInt 5); (VInt 6)])) ;;;
  check (equals_list (get (var s) (XItem (IInt (-1)))) (VSeq [(VInt 4); (VInt 5); (VInt 6)])) ;;;
  check (equals_list (get (var s) (XTuple [ISlice (Sl None None None); IInt 0])) (VSeq [(VInt 1); (VInt 4)])) ;;;
  check (equals_list (get (var s) (XTuple [ISlice (Sl None None None); IInt 1])) (VSeq [(VInt 2); (VInt 5)])) ;;;
  check (equals_list (get (var s) (XTuple [ISlice (Sl None None None); IInt 2])) (VSeq [(VInt 3); (VInt 6)])) ;;;
  check (equals_list (get (var s) (XTuple [ISlice (Sl None None None); IInt (-1)])) (VSeq [(VInt 3); (VInt 6)])) ;;;
  check (equals_list (get (var s) (XTuple [ISlice (Sl None None None); IInt (-2)])) (VSeq [(VInt 2); (VInt 5)])) ;;;
  check (equals_list (get (var s) (XItem (ISlice (Sl (Some 0) None None)))) (VSeq [(VSeq [(VInt 1); (VInt 2); (VInt 3)]); (VSeq [(VInt 4); (VInt 5); (VInt 6)])])) ;;;
  check (equals_list (get (var s) (XItem (ISlice (Sl (Some 1) None None)))) (VSeq [(VSeq [(VInt 4); (VInt 5); (VInt 6)])])) ;;;
  check (equals_list (get (var s) (XItem (ISlice (Sl None None (Some (-1)))))) (VSeq [(VSeq [(VInt 4); (VInt 5); (VInt 6)]); (VSeq [(VInt 1); (VInt 2); (VInt 3)])])) ;;;
  check (equals_list (get (var s) (XItem (ISlice (Sl (Some (-2)) None (Some (-1)))))) (VSeq [(VSeq [(VInt 1); (VInt 2); (VInt 3)])])) ;;;
  check (equals_list (get (var s) (XTuple [ISlice (Sl None None None); ISlice (Sl (Some 0) None None)])) (VSeq [(VSeq [(VInt 1); (VInt 2); (VInt 3)]); (VSeq [(VInt 4); (VInt 5); (VInt 6)])])) ;;;
  check (equals_list (get (var s) (XTuple [ISlice (Sl None None None); ISlice (Sl (Some 1) None None)])) (VSeq [(VSeq [(VInt 2); (VInt 3)]); (VSeq [(VInt 5); (VInt 6)])])) ;;;
  check (equals_list (get (var s) (XTuple [ISlice (Sl None None None); ISlice (Sl (Some 2) None None)])) (VSeq [(VSeq [(VInt 3)]); (VSeq [(VInt 6)])])) ;;;
  check (equals_list (get (var s) (XTuple [ISlice (Sl None None None); ISlice (Sl (Some 0) (Some 2) None)])) (VSeq [(VSeq [(VInt 1); (VInt 2)]); (VSeq [(VInt 4); (VInt 5)])])) ;;;
  check (equals_list (get (var s) (XTuple [ISlice (Sl None None None); ISlice (Sl None (Some (-1)) None)])) (VSeq [(VSeq [(VInt 1); (VInt 2)]); (VSeq [(VInt 4); (VInt 5)])])) ;;;
  check (equals_list (get (var s) (XTuple [ISlice (Sl None None None); ISlice (Sl (Some 1) (Some 2) None)])) (VSeq [(VSeq [(VInt 2)]); (VSeq [(VInt 5)])])) ;;;
  check (equals_list (get (var s) (XTuple [ISlice (Sl None None None); ISlice (Sl None None (Some 2))])) (VSeq [(VSeq [(VInt 1); (VInt 3)]); (VSeq [(VInt 4); (VInt 6)])])) ;;;
  check (equals_list (get (var s) (XTuple [ISlice (Sl None None None); ISlice (Sl None None (Some (-1)))])) (VSeq [(VSeq [(VInt 3); (VInt 2); (VInt 1)]); (VSeq [(VInt 6); (VInt 5); (VInt 4)])])) ;;;
  check (equals_list (get (var s) (XTuple [ISlice (Sl None None None); ISlice (Sl None None (Some (-2)))])) (VSeq [(VSeq [(VInt 3); (VInt 1)]); (VSeq [(VInt 6); (VInt 4)])])) ;;;
  check (equals_list (get (var s) (XTuple [ISlice (Sl None None None); ISlice (Sl (Some (-2)) None (Some (-1)))])) (VSeq [(VSeq [(VInt 2); (VInt 1)]); (VSeq [(VInt 5); (VInt 4)])])) ;;;
  set (var s) (XTuple [IInt 1; IInt 1]) (VInt 22) ;;;
  check (eq (get (var s) (XTuple [IInt 1; IInt 1])) (value (VInt 22))) ;;;
  check (ne (var s) (var s2)) ;;;
  s <-- (make CCSR (VSeq [(VSeq [(VInt 1); VNone; (VInt 3)]); (VSeq [VNone; (VInt 5); VNone])]) None) ;;
  s2 <-- (new_CSR [2; 3] (make CBuffer (VSeq [(VInt 0); (VInt 2); (VInt 3)]) None) (make CBuffer (VSeq [(VInt 0); (VInt 2); (VInt 1)]) None) (make CBuffer (VSeq [(VInt 1); (VInt 3); (VInt 5)]) None)) ;;
  check (eq (var s) (var s2)) ;;;
  check (not_ (full (var s))) ;;;
  check (eq (get (var s) (XTuple [IInt 0; IInt 0])) (value (VInt 1))) ;;;
  check (eq (get (var s) (XTuple [IInt 0; IInt 1])) (unspecified (var s))) ;;;
  check (eq (get (var s) (XTuple [IInt 0; IInt 2])) (value (VInt 3))) ;;;
  check (eq (get (var s) (XTuple [IInt 1; IInt 0])) (unspecified (var s))) ;;;
  check (eq (get (var s) (XTuple [IInt 1; IInt 1])) (value (VInt 5))) ;;;
  check (eq (get (var s) (XTuple [IInt 1; IInt 2])) (unspecified (var s))) ;;;
  s <-- (make CCSR (VSeq [(VSeq [(VInt 1); (VInt 0); (VInt 3)]); (VSeq [(VInt 0); (VInt 5); (VInt 0)])]) (Some (VInt 0))) ;;
  s2 <-- (new_CSR [2; 3] (make CBuffer (VSeq [(VInt 0); (VInt 2); (VInt 3)]) None) (make CBuffer (VSeq [(VInt 0); (VInt 2); (VInt 1)]) None) (make CBuffer (VSeq [(VInt 1); (VInt 3); (VInt 5)]) (Some (VInt 0)))) ;;
  check (eq (var s) (var s2)) ;;;
  check (not_ (full (var s))) ;;;
  check (eq (get (var s) (XTuple [IInt 0; IInt 0])) (value (VInt 1))) ;;;
  check (eq (get (var s) (XTuple [IInt 0; IInt 1])) (unspecified (var s))) ;;;
  check (eq (get (var s) (XTuple [IInt 0; IInt 2])) (value (VInt 3))) ;;;
  check (eq (get (var s) (XTuple [IInt 1; IInt 0])) (unspecified (var s))) ;;;
  check (eq (get (var s) (XTuple [IInt 1; IInt 1])) (value (VInt 5))) ;;;
  check (eq (get (var s) (XTuple [IInt 1; IInt 2])) (unspecified (var s))) ;;;
  done.
Example test_CSR_passes : passes test_CSR.
Proof. vm_compute. reflexivity. Qed.

(** test_storage.py:320-362 *)
Definition test_conversion : T unit :=
  s <-- (make CStrided (VSeq [(VSeq [(VInt 1); (VInt 2); (VInt 3)]); (VSeq [(VInt 4); (VInt 5); (VInt 6)])]) None) ;;
  coo <-- (to CCOO (var s) None) ;;
  fcoo <-- (to CFlatCOO (var s) None) ;;
  csr <-- (to CCSR (var s) None) ;;
  check (eq (to CStrided (var coo) None) (var s)) ;;;
  check (eq (to CFlatCOO (var coo) None) (var fcoo)) ;;;
  check (eq (to CCSR (var coo) None) (var csr)) ;;;
  check (eq (to CStrided (var fcoo) None) (var s)) ;;;
  check (eq (to CCOO (var fcoo) None) (var coo)) ;;;
  check (eq (to CCSR (var fcoo) None) (var csr)) ;;;
  check (eq (to CStrided (var csr) None) (var s)) ;;;
  check (eq (to CCOO (var csr) None) (var coo)) ;;;
  check (eq (to CFlatCOO (var csr) None) (var fcoo)) ;;;
  s <-- (make CStrided (VSeq [(VSeq [(VInt 1); VNone; (VInt 3)]); (VSeq [VNone; (VInt 5); VNone])]) None) ;;
  coo <-- (to CCOO (var s) None) ;;
  fcoo <-- (to CFlatCOO (var s) None) ;;
  csr <-- (to CCSR (var s) None) ;;
  check (eq (to CStrided (var coo) None) (var s)) ;;;
  check (eq (to CFlatCOO (var coo) None) (var fcoo)) ;;;
  check (eq (to CCSR (var coo) None) (var csr)) ;;;
  check (eq (to CStrided (var fcoo) None) (var s)) ;;;
  check (eq (to CCOO (var fcoo) None) (var coo)) ;;;
  check (eq (to CCSR (var fcoo) None) (var csr)) ;;;
  check (eq (to CStrided (var csr) None) (var s)) ;;;
  check (eq (to CCOO (var csr) None) (var coo)) ;;;
  check (eq (to CFlatCOO (var csr) None) (var fcoo)) ;;;
  s <-- (make CStrided (VSeq [(VSeq [(VInt 1); (VInt 0); (VInt 3)]); (VSeq [(VInt 0); (VInt 5); (VInt 0)])]) None) ;;
  coo <-- (to CCOO (var s) (Some (VInt 0))) ;;
  fcoo <-- (to CFlatCOO (var s) (Some (VInt 0))) ;;
  csr <-- (to CCSR (var s) (Some (VInt 0))) ;;
  check (eq (to CStrided (var coo) None) (copied (var s) (Some (VInt 0)))) ;;;
  check (eq (to CFlatCOO (var coo) None) (var fcoo)) ;;;
  check (eq (to CCSR (var coo) None) (var csr)) ;;;
  check (eq (to CStrided (var fcoo) None) (copied (var s) (Some (VInt 0)))) ;;;
  check (eq (to CCOO (var fcoo) None) (var coo)) ;;;
  check (eq (to CCSR (var fcoo) None) (var csr)) ;;;
  check (eq (to CStrided (var csr) None) (copied (var s) (Some (VInt 0)))) ;;;
  check (eq (to CCOO (var csr) None) (var coo)) ;;;
  check (eq (to CFlatCOO (var csr) None) (var fcoo)) ;;;
  done.
Example test_conversion_passes : passes test_conversion.
Proof. vm_compute. reflexivity. Qed.

(** test_storage.py:365-379 *)
Definition test_elements : T unit :=
  s <-- (make CStrided (VSeq [(VSeq [(VInt 1); (VInt 2); (VInt 3)]); (VSeq [(VInt 4); (VInt 5); (VInt 6)])]) None) ;;
  check (lists (var s) [(KTup [0; 0], (VInt 1)); (KTup [0; 1], (VInt 2)); (KTup [0; 2], (VInt 3)); (KTup [1; 0], (VInt 4)); (KTup [1; 1], (VInt 5)); (KTup [1; 2], (VInt 6))]) ;;;
  check (lists (to CCOO (var s) None) [(KTup [0; 0], (VInt 1)); (KTup [0; 1], (VInt 2)); (KTup [0; 2], (VInt 3)); (KTup [1; 0], (VInt 4)); (KTup [1; 1], (VInt 5)); (KTup [1; 2], (VInt 6))]) ;;;
  check (lists (to CFlatCOO (var s) None) [(KTup [0; 0], (VInt 1)); (KTup [0; 1], (VInt 2)); (KTup [0; 2], (VInt 3)); (KTup [1; 0], (VInt 4)); (KTup [1; 1], (VInt 5)); (KTup [1; 2], (VInt 6))]) ;;;
  check (lists (to CCSR (var s) None) [(KTup [0; 0], (VInt 1)); (KTup [0; 1], (VInt 2)); (KTup [0; 2], (VInt 3)); (KTup [1; 0], (VInt 4)); (KTup [1; 1], (VInt 5)); (KTup [1; 2], (VInt 6))]) ;;;
  check (lists (to_DM (var s) CStrided) [(KTup [0; 0], (VInt 1)); (KTup [0; 1], (VInt 2)); (KTup [0; 2], (VInt 3)); (KTup [1; 0], (VInt 4)); (KTup [1; 1], (VInt 5)); (KTup [1; 2], (VInt 6))]) ;;;
  check (lists (to_DM (var s) CStrided) [(KTup [0; 0], (VInt 1)); (KTup [0; 1], (VInt 2)); (KTup [0; 2], (VInt 3)); (KTup [1; 0], (VInt 4)); (KTup [1; 1], (VInt 5)); (KTup [1; 2], (VInt 6))]) ;;;
  check (lists (to_DM (var s) CCOO) [(KTup [0; 0], (VInt 1)); (KTup [0; 1], (VInt 2)); (KTup [0; 2], (VInt 3)); (KTup [1; 0], (VInt 4)); (KTup [1; 1], (VInt 5)); (KTup [1; 2], (VInt 6))]) ;;;
  check (lists (to_DM (var s) CFlatCOO) [(KTup [0; 0], (VInt 1)); (KTup [0; 1], (VInt 2)); (KTup [0; 2], (VInt 3)); (KTup [1; 0], (VInt 4)); (KTup [1; 1], (VInt 5)); (KTup [1; 2], (VInt 6))]) ;;;
  check (lists (to_DM (var s) CCSR) [(KTup [0; 0], (VInt 1)); (KTup [0; 1], (VInt 2)); (KTup [0; 2], (VInt 3)); (KTup [1; 0], (VInt 4)); (KTup [1; 1], (VInt 5)); (KTup [1; 2], (VInt 6))]) ;;;
  check (lists (to_DM (var s) CBuffer) [(KTup [0; 0], (VInt 1)); (KTup [0; 1], (VInt 2)); (KTup [0; 2], (VInt 3)); (KTup [1; 0], (VInt 4)); (KTup [1; 1], (VInt 5)); (KTup [1; 2], (VInt 6))]) ;;;
  done.
Example test_elements_passes : passes test_elements.
Proof. vm_compute. reflexivity. Qed.

(** test_storage.py:384-474, Strided, 2D *)
Definition test_2D_DM_Strided : T unit :=
  s <-- (make_DM (VSeq [(VSeq [(VInt 1); (VInt 2); (VInt 3)]); (VSeq [(VInt 4); (VInt 5); (VInt 6)])]) None None CStrided None) ;;
  s2 <-- (new_DM [2; 3] [[0]; [1]] [[1]; [1]] [0; 0] (make CStrided (VSeq [(VSeq [(VInt 1); (VInt 2); (VInt 3)]); (VSeq [(VInt 4); (VInt 5); (VInt 6)])]) None)) ;;
  check (eq (var s) (var s2)) ;;;
  check (eq (get (var s) (XTuple [IInt 0; IInt 0])) (value (VInt 1))) ;;;
  check (eq (get (var s) (XTuple [IInt 0; IInt 1])) (value (VInt 2))) ;;;
  check (eq (get (var s) (XTuple [IInt 0; IInt 2])) (value (VInt 3))) ;;;
  check (eq (get (var s) (XTuple [IInt 1; IInt 0])) (value (VInt 4))) ;;;
  check (eq (get (var s) (XTuple [IInt 1; IInt 1])) (value (VInt 5))) ;;;
  check (eq (get (var s) (XTuple [IInt 1; IInt 2])) (value (VInt 6))) ;;;
  check (eq (shape (var s)) (value (VSeq [(VInt 2); (VInt 3)]))) ;;;
  set (var s2) (XTuple [IInt 1; IInt 1]) (VInt 22) ;;;
  check (eq (get (var s2) (XTuple [IInt 1; IInt 1])) (value (VInt 22))) ;;;
  check (ne (var s) (var s2)) ;;;
  s <-- (make_DM (VSeq [(VSeq [(VInt 1); VNone; (VInt 3)]); (VSeq [VNone; (VInt 5); VNone])]) None None CStrided None) ;;
  s2 <-- (new_DM [2; 3] [[0]; [1]] [[1]; [1]] [0; 0] (make CStrided (VSeq [(VSeq [(VInt 1); VNone; (VInt 3)]); (VSeq [VNone; (VInt 5); VNone])]) None)) ;;
  check (eq (var s) (var s2)) ;;;
  check (full (var s)) ;;;
  check (eq (get (var s) (XTuple [IInt 0; IInt 0])) (value (VInt 1))) ;;;
  check (eq (get (var s) (XTuple [IInt 0; IInt 1])) (unspecified (var s))) ;;;
  check (eq (get (var s) (XTuple [IInt 0; IInt 2])) (value (VInt 3))) ;;;
  check (eq (get (var s) (XTuple [IInt 1; IInt 0])) (unspecified (var s))) ;;;
  check (eq (get (var s) (XTuple [IInt 1; IInt 1])) (value (VInt 5))) ;;;
  check (eq (get (var s) (XTuple [IInt 1; IInt 2])) (unspecified (var s))) ;;;
  s <-- (make_DM (VSeq [(VSeq [(VInt 1); (VInt 0); (VInt 3)]); (VSeq [(VInt 0); (VInt 5); (VInt 0)])]) None None CStrided (Some (VInt 0))) ;;
  s2 <-- (new_DM [2; 3] [[0]; [1]] [[1]; [1]] [0; 0] (make CStrided (VSeq [(VSeq [(VInt 1); (VInt 0); (VInt 3)]); (VSeq [(VInt 0); (VInt 5); (VInt 0)])]) (Some (VInt 0)))) ;;
  check (eq (var s) (var s2)) ;;;
  check (full (var s)) ;;;
  check (eq (get (var s) (XTuple [IInt 0; IInt 0])) (value (VInt 1))) ;;;
  check (eq (get (var s) (XTuple [IInt 0; IInt 1])) (unspecified (var s))) ;;;
  check (eq (get (var s) (XTuple [IInt 0; IInt 2])) (value (VInt 3))) ;;;
  check (eq (get (var s) (XTuple [IInt 1; IInt 0])) (unspecified (var s))) ;;;
  check (eq (get (var s) (XTuple [IInt 1; IInt 1])) (value (VInt 5))) ;;;
  check (eq (get (var s) (XTuple [IInt 1; IInt 2])) (unspecified (var s))) ;;;
  done.
Example test_2D_DM_Strided_passes : passes test_2D_DM_Strided.
Proof. vm_compute. reflexivity. Qed.

(** test_storage.py:384-474, Strided, 1D *)
Definition test_1D_DM_Strided : T unit :=
  s <-- (make_DM (VSeq [(VSeq [(VInt 1); (VInt 2); (VInt 3)]); (VSeq [(VInt 4); (VInt 5); (VInt 6)])]) (Some [0; 1]) (Some []) CStrided None) ;;
  s2 <-- (new_DM [2; 3] [[0; 1]] [[3; 1]] [0] (make CStrided (VSeq [(VInt 1); (VInt 2); (VInt 3); (VInt 4); (VInt 5); (VInt 6)]) (Some VNone))) ;;
  check (eq (var s) (var s2)) ;;;
  check (eq (get (var s) (XTuple [IInt 0; IInt 0])) (value (VInt 1))) ;;;
  check (eq (get (var s) (XTuple [IInt 0; IInt 1])) (value (VInt 2))) ;;;
  check (eq (get (var s) (XTuple [IInt 0; IInt 2])) (value (VInt 3))) ;;;
  check (eq (get (var s) (XTuple [IInt 1; IInt 0])) (value (VInt 4))) ;;;
  check (eq (get (var s) (XTuple [IInt 1; IInt 1])) (value (VInt 5))) ;;;
  check (eq (get (var s) (XTuple [IInt 1; IInt 2])) (value (VInt 6))) ;;;
  check (eq (shape (var s)) (value (VSeq [(VInt 2); (VInt 3)]))) ;;;
  set (var s2) (XTuple [IInt 1; IInt 1]) (VInt 22) ;;;
  check (eq (get (var s2) (XTuple [IInt 1; IInt 1])) (value (VInt 22))) ;;;
  check (ne (var s) (var s2)) ;;;
  s <-- (make_DM (VSeq [(VSeq [(VInt 1); VNone; (VInt 3)]); (VSeq [VNone; (VInt 5); VNone])]) (Some [0; 1]) (Some []) CStrided None) ;;
  s2 <-- (new_DM [2; 3] [[0; 1]] [[3; 1]] [0] (make CStrided (VSeq [(VInt 1); VNone; (VInt 3); VNone; (VInt 5); VNone]) (Some VNone))) ;;
  check (eq (var s) (var s2)) ;;;
  check (full (var s)) ;;;
  check (eq (get (var s) (XTuple [IInt 0; IInt 0])) (value (VInt 1))) ;;;
  check (eq (get (var s) (XTuple [IInt 0; IInt 1])) (unspecified (var s))) ;;;
  check (eq (get (var s) (XTuple [IInt 0; IInt 2])) (value (VInt 3))) ;;;
  check (eq (get (var s) (XTuple [IInt 1; IInt 0])) (unspecified (var s))) ;;;
  check (eq (get (var s) (XTuple [IInt 1; IInt 1])) (value (VInt 5))) ;;;
  check (eq (get (var s) (XTuple [IInt 1; IInt 2])) (unspecified (var s))) ;;;
  s <-- (make_DM (VSeq [(VSeq [(VInt 1); (VInt 0); (VInt 3)]); (VSeq [(VInt 0); (VInt 5); (VInt 0)])]) (Some [0; 1]) (Some []) CStrided (Some (VInt 0))) ;;
  s2 <-- (new_DM [2; 3] [[0; 1]] [[3; 1]] [0] (make CStrided (VSeq [(VInt 1); (VInt 0); (VInt 3); (VInt 0); (VInt 5); (VInt 0)]) (Some (VInt 0)))) ;;
  check (eq (var s) (var s2)) ;;;
  check (full (var s)) ;;;
  check (eq (get (var s) (XTuple [IInt 0; IInt 0])) (value (VInt 1))) ;;;
  check (eq (get (var s) (XTuple [IInt 0; IInt 1])) (unspecified (var s))) ;;;
  check (eq (get (var s) (XTuple [IInt 0; IInt 2])) (value (VInt 3))) ;;;
  check (eq (get (var s) (XTuple [IInt 1; IInt 0])) (unspecified (var s))) ;;;
  check (eq (get (var s) (XTuple [IInt 1; IInt 1])) (value (VInt 5))) ;;;
  check (eq (get (var s) (XTuple [IInt 1; IInt 2])) (unspecified (var s))) ;;;
  done.
Example test_1D_DM_Strided_passes : passes test_1D_DM_Strided.
Proof. vm_compute. reflexivity. Qed.

(** test_storage.py:384-474, Strided, T1D *)
Definition test_T1D_DM_Strided : T unit :=
  s <-- (make_DM (VSeq [(VSeq [(VInt 1); (VInt 2); (VInt 3)]); (VSeq [(VInt 4); (VInt 5); (VInt 6)])]) (Some [1; 0]) (Some []) CStrided None) ;;
  s2 <-- (new_DM [2; 3] [[1; 0]] [[2; 1]] [0] (make CStrided (VSeq [(VInt 1); (VInt 4); (VInt 2); (VInt 5); (VInt 3); (VInt 6)]) (Some VNone))) ;;
  check (eq (var s) (var s2)) ;;;
  check (eq (get (var s) (XTuple [IInt 0; IInt 0])) (value (VInt 1))) ;;;
  check (eq (get (var s) (XTuple [IInt 0; IInt 1])) (value (VInt 2))) ;;;
  check (eq (get (var s) (XTuple [IInt 0; IInt 2])) (value (VInt 3))) ;;;
  check (eq (get (var s) (XTuple [IInt 1; IInt 0])) (value (VInt 4))) ;;;
  check (eq (get (var s) (XTuple [IInt 1; IInt 1])) (value (VInt 5))) ;;;
  check (eq (get (var s) (XTuple [IInt 1; IInt 2])) (value (VInt 6))) ;;;
  check (eq (shape (var s)) (value (VSeq [(VInt 2); (VInt 3)]))) ;;;
  set (var s2) (XTuple [IInt 1; IInt 1]) (VInt 22) ;;;
  check (eq (get (var s2) (XTuple [IInt 1; IInt 1])) (value (VInt 22))) ;;;
  check (ne (var s) (var s2)) ;;;
  s <-- (make_DM (VSeq [(VSeq [(VInt 1); VNone; (VInt 3)]); (VSeq [VNone; (VInt 5); VNone])]) (Some [1; 0]) (Some []) CStrided None) ;;
  s2 <-- (new_DM [2; 3] [[1; 0]] [[2; 1]] [0] (make CStrided (VSeq [(VInt 1); VNone; VNone; (VInt 5); (VInt 3); VNone]) (Some VNone))) ;;
  check (eq (var s) (var s2)) ;;;
  check (full (var s)) ;;;
  check (eq (get (var s) (XTuple [IInt 0; IInt 0])) (value (VInt 1))) ;;;
  check (eq (get (var s) (XTuple [IInt 0; IInt 1])) (unspecified (var s))) ;;;
  check (eq (get (var s) (XTuple [IInt 0; IInt 2])) (value (VInt 3))) ;;;
  check (eq (get (var s) (XTuple [IInt 1; IInt 0])) (unspecified (var s))) ;;;
  check (eq (get (var s) (XTuple [IInt 1; IInt 1])) (value (VInt 5))) ;;;
  check (eq (get (var s) (XTuple [IInt 1; IInt 2])) (unspecified (var s))) ;;;
  s <-- (make_DM (VSeq [(VSeq [(VInt 1); (VInt 0); (VInt 3)]); (VSeq [(VInt 0); (VInt 5); (VInt 0)])]) (Some [1; 0]) (Some []) CStrided (Some (VInt 0))) ;;
  s2 <-- (new_DM [2; 3] [[1; 0]] [[2; 1]] [0] (make CStrided (VSeq [(VInt 1); (VInt 0); (VInt 0); (VInt 5); (VInt 3); (VInt 0)]) (Some (VInt 0)))) ;;
  check (eq (var s) (var s2)) ;;;
  check (full (var s)) ;;;
  check (eq (get (var s) (XTuple [IInt 0; IInt 0])) (value (VInt 1))) ;;;
  check (eq (get (var s) (XTuple [IInt 0; IInt 1])) (unspecified (var s))) ;;;
  check (eq (get (var s) (XTuple [IInt 0; IInt 2])) (value (VInt 3))) ;;;
  check (eq (get (var s) (XTuple [IInt 1; IInt 0])) (unspecified (var s))) ;;;
  check (eq (get (var s) (XTuple [IInt 1; IInt 1])) (value (VInt 5))) ;;;
  check (eq (get (var s) (XTuple [IInt 1; IInt 2])) (unspecified (var s))) ;;;
  done.
Example test_T1D_DM_Strided_passes : passes test_T1D_DM_Strided.
Proof. vm_compute. reflexivity. Qed.

(** test_storage.py:384-474, COO, 2D *)
Definition test_2D_DM_COO : T unit :=
  s <-- (make_DM (VSeq [(VSeq [(VInt 1); (VInt 2); (VInt 3)]); (VSeq [(VInt 4); (VInt 5); (VInt 6)])]) None None CCOO None) ;;
  s2 <-- (new_DM [2; 3] [[0]; [1]] [[1]; [1]] [0; 0] (make CCOO (VSeq [(VSeq [(VInt 1); (VInt 2); (VInt 3)]); (VSeq [(VInt 4); (VInt 5); (VInt 6)])]) None)) ;;
  check (eq (var s) (var s2)) ;;;
  check (eq (get (var s) (XTuple [IInt 0; IInt 0])) (value (VInt 1))) ;;;
  check (eq (get (var s) (XTuple [IInt 0; IInt 1])) (value (VInt 2))) ;;;
  check (eq (get (var s) (XTuple [IInt 0; IInt 2])) (value (VInt 3))) ;;;
  check (eq (get (var s) (XTuple [IInt 1; IInt 0])) (value (VInt 4))) ;;;
  check (eq (get (var s) (XTuple [IInt 1; IInt 1])) (value (VInt 5))) ;;;
  check (eq (get (var s) (XTuple [IInt 1; IInt 2])) (value (VInt 6))) ;;;
  check (eq (shape (var s)) (value (VSeq [(VInt 2); (VInt 3)]))) ;;;
  set (var s2) (XTuple [IInt 1; IInt 1]) (VInt 22) ;;;
  check (eq (get (var s2) (XTuple [IInt 1; IInt 1])) (value (VInt 22))) ;;;
  check (ne (var s) (var s2)) ;;;
  s <-- (make_DM (VSeq [(VSeq [(VInt 1); VNone; (VInt 3)]); (VSeq [VNone; (VInt 5); VNone])]) None None CCOO None) ;;
  s2 <-- (new_DM [2; 3] [[0]; [1]] [[1]; [1]] [0; 0] (make CCOO (VSeq [(VSeq [(VInt 1); VNone; (VInt 3)]); (VSeq [VNone; (VInt 5); VNone])]) None)) ;;
  check (eq (var s) (var s2)) ;;;
  check (not_ (full (var s))) ;;;
  check (eq (get (var s) (XTuple [IInt 0; IInt 0])) (value (VInt 1))) ;;;
  check (eq (get (var s) (XTuple [IInt 0; IInt 1])) (unspecified (var s))) ;;;
  check (eq (get (var s) (XTuple [IInt 0; IInt 2])) (value (VInt 3))) ;;;
  check (eq (get (var s) (XTuple [IInt 1; IInt 0])) (unspecified (var s))) ;;;
  check (eq (get (var s) (XTuple [IInt 1; IInt 1])) (value (VInt 5))) ;;;
  check (eq (get (var s) (XTuple [IInt 1; IInt 2])) (unspecified (var s))) ;;;
  s <-- (make_DM (VSeq [(VSeq [(VInt 1); (VInt 0); (VInt 3)]); (VSeq [(VInt 0); (VInt 5); (VInt 0)])]) None None CCOO (Some (VInt 0))) ;;
  s2 <-- (new_DM [2; 3] [[0]; [1]] [[1]; [1]] [0; 0] (make CCOO (VSeq [(VSeq [(VInt 1); (VInt 0); (VInt 3)]); (VSeq [(VInt 0); (VInt 5); (VInt 0)])]) (Some (VInt 0)))) ;;
  check (eq (var s) (var s2)) ;;;
  check (not_ (full (var s))) ;;;
  check (eq (get (var s) (XTuple [IInt 0; IInt 0])) (value (VInt 1))) ;;;
  check (eq (get (var s) (XTuple [IInt 0; IInt 1])) (unspecified (var s))) ;;;
  check (eq (get (var s) (XTuple [IInt 0; IInt 2])) (value (VInt 3))) ;;;
  check (eq (get (var s) (XTuple [IInt 1; IInt 0])) (unspecified (var s))) ;;;
  check (eq (get (var s) (XTuple [IInt 1; IInt 1])) (value (VInt 5))) ;;;
  check (eq (get (var s) (XTuple [IInt 1; IInt 2])) (unspecified (var s))) ;;;
  done.
Example test_2D_DM_COO_passes : passes test_2D_DM_COO.
Proof. vm_compute. reflexivity. Qed.

(** test_storage.py:384-474, COO, 1D *)
Definition test_1D_DM_COO : T unit :=
  s <-- (make_DM (VSeq [(VSeq [(VInt 1); (VInt 2); (VInt 3)]); (VSeq [(VInt 4); (VInt 5); (VInt 6)])]) (Some [0; 1]) (Some []) CCOO None) ;;
  s2 <-- (new_DM [2; 3] [[0; 1]] [[3; 1]] [0] (make CCOO (VSeq [(VInt 1); (VInt 2); (VInt 3); (VInt 4); (VInt 5); (VInt 6)]) (Some VNone))) ;;
  check (eq (var s) (var s2)) ;;;
  check (eq (get (var s) (XTuple [IInt 0; IInt 0])) (value (VInt 1))) ;;;
  check (eq (get (var s) (XTuple [IInt 0; IInt 1])) (value (VInt 2))) ;;;
  check (eq (get (var s) (XTuple [IInt 0; IInt 2])) (value (VInt 3))) ;;;
  check (eq (get (var s) (XTuple [IInt 1; IInt 0])) (value (VInt 4))) ;;;
  check (eq (get (var s) (XTuple [IInt 1; IInt 1])) (value (VInt 5))) ;;;
  check (eq (get (var s) (XTuple [IInt 1; IInt 2])) (value (VInt 6))) ;;;
  check (eq (shape (var s)) (value (VSeq [(VInt 2); (VInt 3)]))) ;;;
  set (var s2) (XTuple [IInt 1; IInt 1]) (VInt 22) ;;;
  check (eq (get (var s2) (XTuple [IInt 1; IInt 1])) (value (VInt 22))) ;;;
  check (ne (var s) (var s2)) ;;;
  s <-- (make_DM (VSeq [(VSeq [(VInt 1); VNone; (VInt 3)]); (VSeq [VNone; (VInt 5); VNone])]) (Some [0; 1]) (Some []) CCOO None) ;;
  s2 <-- (new_DM [2; 3] [[0; 1]] [[3; 1]] [0] (make CCOO (VSeq [(VInt 1); VNone; (VInt 3); VNone; (VInt 5); VNone]) (Some VNone))) ;;
  check (eq (var s) (var s2)) ;;;
  check (not_ (full (var s))) ;;;
  check (eq (get (var s) (XTuple [IInt 0; IInt 0])) (value (VInt 1))) ;;;
  check (eq (get (var s) (XTuple [IInt 0; IInt 1])) (unspecified (var s))) ;;;
  check (eq (get (var s) (XTuple [IInt 0; IInt 2])) (value (VInt 3))) ;;;
  check (eq (get (var s) (XTuple [IInt 1; IInt 0])) (unspecified (var s))) ;;;
  check (eq (get (var s) (XTuple [IInt 1; IInt 1])) (value (VInt 5))) ;;;
  check (eq (get (var s) (XTuple [IInt 1; IInt 2])) (unspecified (var s))) ;;;
  s <-- (make_DM (VSeq [(VSeq [(VInt 1); (VInt 0); (VInt 3)]); (VSeq [(VInt 0); (VInt 5); (VInt 0)])]) (Some [0; 1]) (Some []) CCOO (Some (VInt 0))) ;;
  s2 <-- (new_DM [2; 3] [[0; 1]] [[3; 1]] [0] (make CCOO (VSeq [(VInt 1); (VInt 0); (VInt 3); (VInt 0); (VInt 5); (VInt 0)]) (Some (VInt 0)))) ;;
  check (eq (var s) (var s2)) ;;;
  check (not_ (full (var s))) ;;;
  check (eq (get (var s) (XTuple [IInt 0; IInt 0])) (value (VInt 1))) ;;;
  check (eq (get (var s) (XTuple [IInt 0; IInt 1])) (unspecified (var s))) ;;;
  check (eq (get (var s) (XTuple [IInt 0; IInt 2])) (value (VInt 3))) ;;;
  check (eq (get (var s) (XTuple [IInt 1; IInt 0])) (unspecified (var s))) ;;;
  check (eq (get (var s) (XTuple [IInt 1; IInt 1])) (value (VInt 5))) ;;;
  check (eq (get (var s) (XTuple [IInt 1; IInt 2])) (unspecified (var s))) ;;;
  done.
Example test_1D_DM_COO_passes : passes test_1D_DM_COO.
Proof. vm_compute. reflexivity. Qed.

(** test_storage.py:384-474, COO, T1D *)
Definition test_T1D_DM_COO : T unit :=
  s <-- (make_DM (VSeq [(VSeq [(VInt 1); (VInt 2); (VInt 3)]); (VSeq [(VInt 4); (VInt 5); (VInt 6)])]) (Some [1; 0]) (Some []) CCOO None) ;;
  s2 <-- (new_DM [2; 3] [[1; 0]] [[2; 1]] [0] (make CCOO (VSeq [(VInt 1); (VInt 4); (VInt 2); (VInt 5); (VInt 3); (VInt 6)]) (Some VNone))) ;;
  check (eq (var s) (var s2)) ;;;
  check (eq (get (var s) (XTuple [IInt 0; IInt 0])) (value (VInt 1))) ;;;
  check (eq (get (var s) (XTuple [IInt 0; IInt 1])) (value (VInt 2))) ;;;
  check (eq (get (var s) (XTuple [IInt 0; IInt 2])) (value (VInt 3))) ;;;
  check (eq (get (var s) (XTuple [IInt 1; IInt 0])) (value (VInt 4))) ;;;
  check (eq (get (var s) (XTuple [IInt 1; IInt 1])) (value (VInt 5))) ;;;
  check (eq (get (var s) (XTuple [IInt 1; IInt 2])) (value (VInt 6))) ;;;
  check (eq (shape (var s)) (value (VSeq [(VInt 2); (VInt 3)]))) ;;;
  set (var s2) (XTuple [IInt 1; IInt 1]) (VInt 22) ;;;
  check (eq (get (var s2) (XTuple [IInt 1; IInt 1])) (value (VInt 22))) ;;;
  check (ne (var s) (var s2)) ;;;
  s <-- (make_DM (VSeq [(VSeq [(VInt 1); VNone; (VInt 3)]); (VSeq [VNone; (VInt 5); VNone])]) (Some [1; 0]) (Some []) CCOO None) ;;
  s2 <-- (new_DM [2; 3] [[1; 0]] [[2; 1]] [0] (make CCOO (VSeq [(VInt 1); VNone; VNone; (VInt 5); (VInt 3); VNone]) (Some VNone))) ;;
  check (eq (var s) (var s2)) ;;;
  check (not_ (full (var s))) ;;;
  check (eq (get (var s) (XTuple [IInt 0; IInt 0])) (value (VInt 1))) ;;;
  check (eq (get (var s) (XTuple [IInt 0; IInt 1])) (unspecified (var s))) ;;;
  check (eq (get (var s) (XTuple [IInt 0; IInt 2])) (value (VInt 3))) ;;;
  check (eq (get (var s) (XTuple [IInt 1; IInt 0])) (unspecified (var s))) ;;;
  check (eq (get (var s) (XTuple [IInt 1; IInt 1])) (value (VInt 5))) ;;;
  check (eq (get (var s) (XTuple [IInt 1; IInt 2])) (unspecified (var s))) ;;;
  s <-- (make_DM (VSeq [(VSeq [(VInt 1); (VInt 0); (VInt 3)]); (VSeq [(VInt 0); (VInt 5); (VInt 0)])]) (Some [1; 0]) (Some []) CCOO (Some (VInt 0))) ;;
  s2 <-- (new_DM [2; 3] [[1; 0]] [[2; 1]] [0] (make CCOO (VSeq [(VInt 1); (VInt 0); (VInt 0); (VInt 5); (VInt 3); (VInt 0)]) (Some (VInt 0)))) ;;
  check (eq (var s) (var s2)) ;;;
  check (not_ (full (var s))) ;;;
  check (eq (get (var s) (XTuple [IInt 0; IInt 0])) (value (VInt 1))) ;;;
  check (eq (get (var s) (XTuple [IInt 0; IInt 1])) (unspecified (var s))) ;;;
  check (eq (get (var s) (XTuple [IInt 0; IInt 2])) (value (VInt 3))) ;;;
  check (eq (get (var s) (XTuple [IInt 1; IInt 0])) (unspecified (var s))) ;;;
  check (eq (get (var s) (XTuple [IInt 1; IInt 1])) (value (VInt 5))) ;;;
  check (eq (get (var s) (XTuple [IInt 1; IInt 2])) (unspecified (var s))) ;;;
  done.
Example test_T1D_DM_COO_passes : passes test_T1D_DM_COO.
Proof. vm_compute. reflexivity. Qed.

(** test_storage.py:384-474, FlatCOO, 2D *)
Definition test_2D_DM_FlatCOO : T unit :=
  s <-- (make_DM (VSeq [(VSeq [(VInt 1); (VInt 2); (VInt 3)]); (VSeq [(VInt 4); (VInt 5); (VInt 6)])]) None None CFlatCOO None) ;;
  s2 <-- (new_DM [2; 3] [[0]; [1]] [[1]; [1]] [0; 0] (make CFlatCOO (VSeq [(VSeq [(VInt 1); (VInt 2); (VInt 3)]); (VSeq [(VInt 4); (VInt 5); (VInt 6)])]) None)) ;;
  check (eq (var s) (var s2)) ;;;
  check (eq (get (var s) (XTuple [IInt 0; IInt 0])) (value (VInt 1))) ;;;
  check (eq (get (var s) (XTuple [IInt 0; IInt 1])) (value (VInt 2))) ;;;
  check (eq (get (var s) (XTuple [IInt 0; IInt 2])) (value (VInt 3))) ;;;
  check (eq (get (var s) (XTuple [IInt 1; IInt 0])) (value (VInt 4))) ;;;
  check (eq (get (var s) (XTuple [IInt 1; IInt 1])) (value (VInt 5))) ;;;
  check (eq (get (var s) (XTuple [IInt 1; IInt 2])) (value (VInt 6))) ;;;
  check (eq (shape (var s)) (value (VSeq [(VInt 2); (VInt 3)]))) ;;;
  set (var s2) (XTuple [IInt 1; IInt 1]) (VInt 22) ;;;
  check (eq (get (var s2) (XTuple [IInt 1; IInt 1])) (value (VInt 22))) ;;;
  check (ne (var s) (var s2)) ;;;
  s <-- (make_DM (VSeq [(VSeq [(VInt 1); VNone; (VInt 3)]); (VSeq [VNone; (VInt 5); VNone])]) None None CFlatCOO None) ;;
  s2 <-- (new_DM [2; 3] [[0]; [1]] [[1]; [1]] [0; 0] (make CFlatCOO (VSeq [(VSeq [(VInt 1); VNone; (VInt 3)]); (VSeq [VNone; (VInt 5); VNone])]) None)) ;;
  check (eq (var s) (var s2)) ;;;
  check (not_ (full (var s))) ;;;
  check (eq (get (var s) (XTuple [IInt 0; IInt 0])) (value (VInt 1))) ;;;
  check (eq (get (var s) (XTuple [IInt 0; IInt 1])) (unspecified (var s))) ;;;
  check (eq (get (var s) (XTuple [IInt 0; IInt 2])) (value (VInt 3))) ;;;
  check (eq (get (var s) (XTuple [IInt 1; IInt 0])) (unspecified (var s))) ;;;
  check (eq (get (var s) (XTuple [IInt 1; IInt 1])) (value (VInt 5))) ;;;
  check (eq (get (var s) (XTuple [IInt 1; IInt 2])) (unspecified (var s))) ;;;
  s <-- (make_DM (VSeq [(VSeq [(VInt 1); (VInt 0); (VInt 3)]); (VSeq [(VInt 0); (VInt 5); (VInt 0)])]) None None CFlatCOO (Some (VInt 0))) ;;
  s2 <-- (new_DM [2; 3] [[0]; [1]] [[1]; [1]] [0; 0] (make CFlatCOO (VSeq [(VSeq [(VInt 1); (VInt 0); (VInt 3)]); (VSeq [(VInt 0); (VInt 5); (VInt 0)])]) (Some (VInt 0)))) ;;
  check (eq (var s) (var s2)) ;;;
  check (not_ (full (var s))) ;;;
  check (eq (get (var s) (XTuple [IInt 0; IInt 0])) (value (VInt 1))) ;;;
  check (eq (get (var s) (XTuple [IInt 0; IInt 1])) (unspecified (var s))) ;;;
  check (eq (get (var s) (XTuple [IInt 0; IInt 2])) (value (VInt 3))) ;;;
  check (eq (get (var s) (XTuple [IInt 1; IInt 0])) (unspecified (var s))) ;;;
  check (eq (get (var s) (XTuple [IInt 1; IInt 1])) (value (VInt 5))) ;;;
  check (eq (get (var s) (XTuple [IInt 1; IInt 2])) (unspecified (var s))) ;;;
  done.
Example test_2D_DM_FlatCOO_passes : passes test_2D_DM_FlatCOO.
Proof. vm_compute. reflexivity. Qed.

(** test_storage.py:384-474, FlatCOO, 1D *)
Definition test_1D_DM_FlatCOO : T unit :=
  s <-- (make_DM (VSeq [(VSeq [(VInt 1); (VInt 2); (VInt 3)]); (VSeq [(VInt 4); (VInt 5); (VInt 6)])]) (Some [0; 1]) (Some []) CFlatCOO None) ;;
  s2 <-- (new_DM [2; 3] [[0; 1]] [[3; 1]] [0] (make CFlatCOO (VSeq [(VInt 1); (VInt 2); (VInt 3); (VInt 4); (VInt 5); (VInt 6)]) (Some VNone))) ;;
  check (eq (var s) (var s2)) ;;;
  check (eq (get (var s) (XTuple [IInt 0; IInt 0])) (value (VInt 1))) ;;;
  check (eq (get (var s) (XTuple [IInt 0; IInt 1])) (value (VInt 2))) ;;;
  check (eq (get (var s) (XTuple [IInt 0; IInt 2])) (value (VInt 3))) ;;;
  check (eq (get (var s) (XTuple [IInt 1; IInt 0])) (value (VInt 4))) ;;;
  check (eq (get (var s) (XTuple [IInt 1; IInt 1])) (value (VInt 5))) ;;;
  check (eq (get (var s) (XTuple [IInt 1; IInt 2])) (value (VInt 6))) ;;;
  check (eq (shape (var s)) (value (VSeq [(VInt 2); (VInt 3)]))) ;;;
  set (var s2) (XTuple [IInt 1; IInt 1]) (VInt 22) ;;;
  check (eq (get (var s2) (XTuple [IInt 1; IInt 1])) (value (VInt 22))) ;;;
  check (ne (var s) (var s2)) ;;;
  s <-- (make_DM (VSeq [(VSeq [(VInt 1); VNone; (VInt 3)]); (VSeq [VNone; (VInt 5); VNone])]) (Some [0; 1]) (Some []) CFlatCOO None) ;;
  s2 <-- (new_DM [2; 3] [[0; 1]] [[3; 1]] [0] (make CFlatCOO (VSeq [(VInt 1); VNone; (VInt 3); VNone; (VInt 5); VNone]) (Some VNone))) ;;
  check (eq (var s) (var s2)) ;;;
  check (not_ (full (var s))) ;;;
  check (eq (get (var s) (XTuple [IInt 0; IInt 0])) (value (VInt 1))) ;;;
  check (eq (get (var s) (XTuple [IInt 0; IInt 1])) (unspecified (var s))) ;;;
  check (eq (get (var s) (XTuple [IInt 0; IInt 2])) (value (VInt 3))) ;;;
  check (eq (get (var s) (XTuple [IInt 1; IInt 0])) (unspecified (var s))) ;;;
  check (eq (get (var s) (XTuple [IInt 1; IInt 1])) (value (VInt 5))) ;;;
  check (eq (get (var s) (XTuple [IInt 1; IInt 2])) (unspecified (var s))) ;;;
  s <-- (make_DM (VSeq [(VSeq [(VInt 1); (VInt 0); (VInt 3)]); (VSeq [(VInt 0); (VInt 5); (VInt 0)])]) (Some [0; 1]) (Some []) CFlatCOO (Some (VInt 0))) ;;
  s2 <-- (new_DM [2; 3] [[0; 1]] [[3; 1]] [0] (make CFlatCOO (VSeq [(VInt 1); (VInt 0); (VInt 3); (VInt 0); (VInt 5); (VInt 0)]) (Some (VInt 0)))) ;;
  check (eq (var s) (var s2)) ;;;
  check (not_ (full (var s))) ;;;
  check (eq (get (var s) (XTuple [IInt 0; IInt 0])) (value (VInt 1))) ;;;
  check (eq (get (var s) (XTuple [IInt 0; IInt 1])) (unspecified (var s))) ;;;
  check (eq (get (var s) (XTuple [IInt 0; IInt 2])) (value (VInt 3))) ;;;
  check (eq (get (var s) (XTuple [IInt 1; IInt 0])) (unspecified (var s))) ;;;
  check (eq (get (var s) (XTuple [IInt 1; IInt 1])) (value (VInt 5))) ;;;
  check (eq (get (var s) (XTuple [IInt 1; IInt 2])) (unspecified (var s))) ;;;
  done.
Example test_1D_DM_FlatCOO_passes : passes test_1D_DM_FlatCOO.
Proof. vm_compute. reflexivity. Qed.

(** test_storage.py:384-474, FlatCOO, T1D *)
Definition test_T1D_DM_FlatCOO : T unit :=
  s <-- (make_DM (VSeq [(VSeq [(VInt 1); (VInt 2); (VInt 3)]); (VSeq [(VInt 4); (VInt 5); (VInt 6)])]) (Some [1; 0]) (Some []) CFlatCOO None) ;;
  s2 <-- (new_DM [2; 3] [[1; 0]] [[2; 1]] [0] (make CFlatCOO (VSeq [(VInt 1); (VInt 4); (VInt 2); (VInt 5); (VInt 3); (VInt 6)]) (Some VNone))) ;;
  check (eq (var s) (var s2)) ;;;
  check (eq (get (var s) (XTuple [IInt 0; IInt 0])) (value (VInt 1))) ;;;
  check (eq (get (var s) (XTuple [IInt 0; IInt 1])) (value (VInt 2))) ;;;
  check (eq (get (var s) (XTuple [IInt 0; IInt 2])) (value (VInt 3))) ;;;
  check (eq (get (var s) (XTuple [IInt 1; IInt 0])) (value (VInt 4))) ;;;
  check (eq (get (var s) (XTuple [IInt 1; IInt 1])) (value (VInt 5))) ;;;
  check (eq (get (var s) (XTuple [IInt 1; IInt 2])) (value (VInt 6))) ;;;
  check (eq (shape (var s)) (value (VSeq [(VInt 2); (VInt 3)]))) ;;;
  set (var s2) (XTuple [IInt 1; IInt 1]) (VInt 22) ;;;
  check (eq (get (var s2) (XTuple [IInt 1; IInt 1])) (value (VInt 22))) ;;;
  check (ne (var s) (var s2)) ;;;
  s <-- (make_DM (VSeq [(VSeq [(VInt 1); VNone; (VInt 3)]); (VSeq [VNone; (VInt 5); VNone])]) (Some [1; 0]) (Some []) CFlatCOO None) ;;
  s2 <-- (new_DM [2; 3] [[1; 0]] [[2; 1]] [0] (make CFlatCOO (VSeq [(VInt 1); VNone; VNone; (VInt 5); (VInt 3); VNone]) (Some VNone))) ;;
  check (eq (var s) (var s2)) ;;;
  check (not_ (full (var s))) ;;;
  check (eq (get (var s) (XTuple [IInt 0; IInt 0])) (value (VInt 1))) ;;;
  check (eq (get (var s) (XTuple [IInt 0; IInt 1])) (unspecified (var s))) ;;;
  check (eq (get (var s) (XTuple [IInt 0; IInt 2])) (value (VInt 3))) ;;;
  check (eq (get (var s) (XTuple [IInt 1; IInt 0])) (unspecified (var s))) ;;;
  check (eq (get (var s) (XTuple [IInt 1; IInt 1])) (value (VInt 5))) ;;;
  check (eq (get (var s) (XTuple [IInt 1; IInt 2])) (unspecified (var s))) ;;;
  s <-- (make_DM (VSeq [(VSeq [(VInt 1); (VInt 0); (VInt 3)]); (VSeq [(VInt 0); (VInt 5); (VInt 0)])]) (Some [1; 0]) (Some []) CFlatCOO (Some (VInt 0))) ;;
  s2 <-- (new_DM [2; 3] [[1; 0]] [[2; 1]] [0] (make CFlatCOO (VSeq [(VInt 1); (VInt 0); (VInt 0); (VInt 5); (VInt 3); (VInt 0)]) (Some (VInt 0)))) ;;
  check (eq (var s) (var s2)) ;;;
  check (not_ (full (var s))) ;;;
  check (eq (get (var s) (XTuple [IInt 0; IInt 0])) (value (VInt 1))) ;;;
  check (eq (get (var s) (XTuple [IInt 0; IInt 1])) (unspecified (var s))) ;;;
  check (eq (get (var s) (XTuple [IInt 0; IInt 2])) (value (VInt 3))) ;;;
  check (eq (get (var s) (XTuple [IInt 1; IInt 0])) (unspecified (var s))) ;;;
  check (eq (get (var s) (XTuple [IInt 1; IInt 1])) (value (VInt 5))) ;;;
  check (eq (get (var s) (XTuple [IInt 1; IInt 2])) (unspecified (var s))) ;;;
  done.
Example test_T1D_DM_FlatCOO_passes : passes test_T1D_DM_FlatCOO.
Proof. vm_compute. reflexivity. Qed.

(** test_storage.py:384-474, CSR, 2D *)
Definition test_2D_DM_CSR : T unit :=
  s <-- (make_DM (VSeq [(VSeq [(VInt 1); (VInt 2); (VInt 3)]); (VSeq [(VInt 4); (VInt 5); (VInt 6)])]) None None CCSR None) ;;
  s2 <-- (new_DM [2; 3] [[0]; [1]] [[1]; [1]] [0; 0] (make CCSR (VSeq [(VSeq [(VInt 1); (VInt 2); (VInt 3)]); (VSeq [(VInt 4); (VInt 5); (VInt 6)])]) None)) ;;
  check (eq (var s) (var s2)) ;;;
  check (eq (get (var s) (XTuple [IInt 0; IInt 0])) (value (VInt 1))) ;;;
  check (eq (get (var s) (XTuple [IInt 0; IInt 1])) (value (VInt 2))) ;;;
  check (eq (get (var s) (XTuple [IInt 0; IInt 2])) (value (VInt 3))) ;;;
  check (eq (get (var s) (XTuple [IInt 1; IInt 0])) (value (VInt 4))) ;;;
  check (eq (get (var s) (XTuple [IInt 1; IInt 1])) (value (VInt 5))) ;;;
  check (eq (get (var s) (XTuple [IInt 1; IInt 2])) (value (VInt 6))) ;;;
  check (eq (shape (var s)) (value (VSeq [(VInt 2); (VInt 3)]))) ;;;
  set (var s2) (XTuple [IInt 1; IInt 1]) (VInt 22) ;;;
  check (eq (get (var s2) (XTuple [IInt 1; IInt 1])) (value (VInt 22))) ;;;
  check (ne (var s) (var s2)) ;;;
  s <-- (make_DM (VSeq [(VSeq [(VInt 1); VNone; (VInt 3)]); (VSeq [VNone; (VInt 5); VNone])]) None None CCSR None) ;;
  s2 <-- (new_DM [2; 3] [[0]; [1]] [[1]; [1]] [0; 0] (make CCSR (VSeq [(VSeq [(VInt 1); VNone; (VInt 3)]); (VSeq [VNone; (VInt 5); VNone])]) None)) ;;
  check (eq (var s) (var s2)) ;;;
  check (not_ (full (var s))) ;;;
  check (eq (get (var s) (XTuple [IInt 0; IInt 0])) (value (VInt 1))) ;;;
  check (eq (get (var s) (XTuple [IInt 0; IInt 1])) (unspecified (var s))) ;;;
  check (eq (get (var s) (XTuple [IInt 0; IInt 2])) (value (VInt 3))) ;;;
  check (eq (get (var s) (XTuple [IInt 1; IInt 0])) (unspecified (var s))) ;;;
  check (eq (get (var s) (XTuple [IInt 1; IInt 1])) (value (VInt 5))) ;;;
  check (eq (get (var s) (XTuple [IInt 1; IInt 2])) (unspecified (var s))) ;;;
  s <-- (make_DM (VSeq [(VSeq [(VInt 1); (VInt 0); (VInt 3)]); (VSeq [(VInt 0); (VInt 5); (VInt 0)])]) None None CCSR (Some (VInt 0))) ;;
  s2 <-- (new_DM [2; 3] [[0]; [1]] [[1]; [1]] [0; 0] (make CCSR (VSeq [(VSeq [(VInt 1); (VInt 0); (VInt 3)]); (VSeq [(VInt 0); (VInt 5); (VInt 0)])]) (Some (VInt 0)))) ;;
  check (eq (var s) (var s2)) ;;;
  check (not_ (full (var s))) ;;;
  check (eq (get (var s) (XTuple [IInt 0; IInt 0])) (value (VInt 1))) ;;;
  check (eq (get (var s) (XTuple [IInt 0; IInt 1])) (unspecified (var s))) ;;;
  check (eq (get (var s) (XTuple [IInt 0; IInt 2])) (value (VInt 3))) ;;;
  check (eq (get (var s) (XTuple [IInt 1; IInt 0])) (unspecified (var s))) ;;;
  check (eq (get (var s) (XTuple [IInt 1; IInt 1])) (value (VInt 5))) ;;;
  check (eq (get (var s) (XTuple [IInt 1; IInt 2])) (unspecified (var s))) ;;;
  done.
Example test_2D_DM_CSR_passes : passes test_2D_DM_CSR.
Proof. vm_compute. reflexivity. Qed.

(** test_storage.py:565-588, Strided *)
Definition test_slicing_Strided : T unit :=
  s <-- (make CStrided (VSeq [(VSeq [(VInt 1); (VInt 2); (VInt 3)]); (VSeq [(VInt 4); (VInt 5); (VInt 6)])]) None) ;;
  set (var s) (XItem (IInt 0)) (VSeq [(VInt 11); (VInt 12); (VInt 13)]) ;;;
  check (equals_list (var s) (VSeq [(VSeq [(VInt 11); (VInt 12); (VInt 13)]); (VSeq [(VInt 4); (VInt 5); (VInt 6)])])) ;;;
  set (var s) (XItem (IInt 1)) (VSeq [(VInt 21); (VInt 22); (VInt 23)]) ;;;
  check (equals_list (var s) (VSeq [(VSeq [(VInt 11); (VInt 12); (VInt 13)]); (VSeq [(VInt 21); (VInt 22); (VInt 23)])])) ;;;
  set (var s) (XTuple [IInt 0; ISlice (Sl (Some 1) None None)]) (VSeq [(VInt 120); (VInt 130)]) ;;;
  check (equals_list (var s) (VSeq [(VSeq [(VInt 11); (VInt 120); (VInt 130)]); (VSeq [(VInt 21); (VInt 22); (VInt 23)])])) ;;;
  set (var s) (XTuple [ISlice (Sl None None None); IInt 1]) (VSeq [(VInt 221); (VInt 222)]) ;;;
  check (equals_list (var s) (VSeq [(VSeq [(VInt 11); (VInt 221); (VInt 130)]); (VSeq [(VInt 21); (VInt 222); (VInt 23)])])) ;;;
  s <-- (make CStrided (VSeq [(VSeq [(VInt 1); (VInt 2); (VInt 3)]); (VSeq [(VInt 4); (VInt 5); (VInt 6)])]) None) ;;
  check (equals_list (get (var s) (XItem (IInt 0))) (VSeq [(VInt 1); (VInt 2); (VInt 3)])) ;;;
  check (equals_list (get (var s) (XItem (IInt 1))) (VSeq [(VInt 4); (VInt 5); (VInt 6)])) ;;;
  check (equals_list (get (var s) (XTuple [ISlice (Sl None None None); IInt 0])) (VSeq [(VInt 1); (VInt 4)])) ;;;
  check (equals_list (get (var s) (XTuple [ISlice (Sl None None None); IInt 1])) (VSeq [(VInt 2); (VInt 5)])) ;;;
  check (equals_list (get (var s) (XTuple [ISlice (Sl None None None); IInt 2])) (VSeq [(VInt 3); (VInt 6)])) ;;;
  check (equals_list (get (var s) (XTuple [ISlice (Sl (Some 1) None None); ISlice (Sl (Some 1) None None)])) (VSeq [(VSeq [(VInt 5); (VInt 6)])])) ;;;
  check (equals_list (get (var s) (XTuple [ISlice (Sl None (Some 1) None); ISlice (Sl None (Some 2) None)])) (VSeq [(VSeq [(VInt 1); (VInt 2)])])) ;;;
  check (equals_list (get (var s) (XTuple [IInt 0; ISlice (Sl None None (Some 2))])) (VSeq [(VInt 1); (VInt 3)])) ;;;
  check (equals_list (get (var s) (XTuple [IInt 1; ISlice (Sl None None (Some 2))])) (VSeq [(VInt 4); (VInt 6)])) ;;;
  check (equals_list (get (var s) (XTuple [IInt 0; ISlice (Sl None None (Some (-1)))])) (VSeq [(VInt 3); (VInt 2); (VInt 1)])) ;;;
  check (equals_list (get (var s) (XTuple [ISlice (Sl None None (Some (-1))); ISlice (Sl None None (Some (-1)))])) (VSeq [(VSeq [(VInt 6); (VInt 5); (VInt 4)]); (VSeq [(VInt 3); (VInt 2); (VInt 1)])])) ;;;
  done.
Example test_slicing_Strided_passes : passes test_slicing_Strided.
Proof. vm_compute. reflexivity. Qed.

(** test_storage.py:565-588, COO *)
Definition test_slicing_COO : T unit :=
  s <-- (make CCOO (VSeq [(VSeq [(VInt 1); (VInt 2); (VInt 3)]); (VSeq [(VInt 4); (VInt 5); (VInt 6)])]) None) ;;
  set (var s) (XItem (IInt 0)) (VSeq [(VInt 11); (VInt 12); (VInt 13)]) ;;;
  check (equals_list (var s) (VSeq [(VSeq [(VInt 11); (VInt 12); (VInt 13)]); (VSeq [(VInt 4); (VInt 5); (VInt 6)])])) ;;;
  set (var s) (XItem (IInt 1)) (VSeq [(VInt 21); (VInt 22); (VInt 23)]) ;;;
  check (equals_list (var s) (VSeq [(VSeq [(VInt 11); (VInt 12); (VInt 13)]); (VSeq [(VInt 21); (VInt 22); (VInt 23)])])) ;;;
  set (var s) (XTuple [IInt 0; ISlice (Sl (Some 1) None None)]) (VSeq [(VInt 120); (VInt 130)]) ;;;
  check (equals_list (var s) (VSeq [(VSeq [(VInt 11); (VInt 120); (VInt 130)]); (VSeq [(VInt 21); (VInt 22); (VInt 23)])])) ;;;
  set (var s) (XTuple [ISlice (Sl None None None); IInt 1]) (VSeq [(VInt 221); (VInt 222)]) ;;;
  check (equals_list (var s) (VSeq [(VSeq [(VInt 11); (VInt 221); (VInt 130)]); (VSeq [(VInt 21); (VInt 222); (VInt 23)])])) ;;;
  s <-- (make CCOO (VSeq [(VSeq [(VInt 1); (VInt 2); (VInt 3)]); (VSeq [(VInt 4); (VInt 5); (VInt 6)])]) None) ;;
  check (equals_list (get (var s) (XItem (IInt 0))) (VSeq [(VInt 1); (VInt 2); (VInt 3)])) ;;;
  check (equals_list (get (var s) (XItem (IInt 1))) (VSeq [(VInt 4); (VInt 5); (VInt 6)])) ;;;
  check (equals_list (get (var s) (XTuple [ISlice (Sl None None None); IInt 0])) (VSeq [(VInt 1); (VInt 4)])) ;;;
  check (equals_list (get (var s) (XTuple [ISlice (Sl None None None); IInt 1])) (VSeq [(VInt 2); (VInt 5)])) ;;;
  check (equals_list (get (var s) (XTuple [ISlice (Sl None None None); IInt 2])) (VSeq [(VInt 3); (VInt 6)])) ;;;
  check (equals_list (get (var s) (XTuple [ISlice (Sl (Some 1) None None); ISlice (Sl (Some 1) None None)])) (VSeq [(VSeq [(VInt 5); (VInt 6)])])) ;;;
  check (equals_list (get (var s) (XTuple [ISlice (Sl None (Some 1) None); ISlice (Sl None (Some 2) None)])) (VSeq [(VSeq [(VInt 1); (VInt 2)])])) ;;;
  check (equals_list (get (var s) (XTuple [IInt 0; ISlice (Sl None None (Some 2))])) (VSeq [(VInt 1); (VInt 3)])) ;;;
  check (equals_list (get (var s) (XTuple [IInt 1; ISlice (Sl None None (Some 2))])) (VSeq [(VInt 4); (VInt 6)])) ;;;
  check (equals_list (get (var s) (XTuple [IInt 0; ISlice (Sl None None (Some (-1)))])) (VSeq [(VInt 3); (VInt 2); (VInt 1)])) ;;;
  check (equals_list (get (var s) (XTuple [ISlice (Sl None None (Some (-1))); ISlice (Sl None None (Some (-1)))])) (VSeq [(VSeq [(VInt 6); (VInt 5); (VInt 4)]); (VSeq [(VInt 3); (VInt 2); (VInt 1)])])) ;;;
  done.
Example test_slicing_COO_passes : passes test_slicing_COO.
Proof. vm_compute. reflexivity. Qed.

(** test_storage.py:565-588, FlatCOO *)
Definition test_slicing_FlatCOO : T unit :=
  s <-- (make CFlatCOO (VSeq [(VSeq [(VInt 1); (VInt 2); (VInt 3)]); (VSeq [(VInt 4); (VInt 5); (VInt 6)])]) None) ;;
  set (var s) (XItem (IInt 0)) (VSeq [(VInt 11); (VInt 12); (VInt 13)]) ;;;
  check (equals_list (var s) (VSeq [(VSeq [(VInt 11); (VInt 12); (VInt 13)]); (VSeq [(VInt 4); (VInt 5); (VInt 6)])])) ;;;
  set (var s) (XItem (IInt 1)) (VSeq [(VInt 21); (VInt 22); (VInt 23)]) ;;;
  check (equals_list (var s) (VSeq [(VSeq [(VInt 11); (VInt 12); (VInt 13)]); (VSeq [(VInt 21); (VInt 22); (VInt 23)])])) ;;;
  set (var s) (XTuple [IInt 0; ISlice (Sl (Some 1) None None)]) (VSeq [(VInt 120); (VInt 130)]) ;;;
  check (equals_list (var s) (VSeq [(VSeq [(VInt 11); (VInt 120); (VInt 130)]); (VSeq [(VInt 21); (VInt 22); (VInt 23)])])) ;;;
  set (var s) (XTuple [ISlice (Sl None None None); IInt 1]) (VSeq [(VInt 221); (VInt 222)]) ;;;
  check (equals_list (var s) (VSeq [(VSeq [(VInt 11); (VInt 221); (VInt 130)]); (VSeq [(VInt 21); (VInt 222); (VInt 23)])])) ;;;
  s <-- (make CFlatCOO (VSeq [(VSeq [(VInt 1); (VInt 2); (VInt 3)]); (VSeq [(VInt 4); (VInt 5); (VInt 6)])]) None) ;;
  check (equals_list (get (var s) (XItem (IInt 0))) (VSeq [(VInt 1); (VInt 2); (VInt 3)])) ;;;
  check (equals_list (get (var s) (XItem (IInt 1))) (VSeq [(VInt 4); (VInt 5); (VInt 6)])) ;;;
  check (equals_list (get (var s) (XTuple [ISlice (Sl None None None); IInt 0])) (VSeq [(VInt 1); (VInt 4)])) ;;;
  check (equals_list (get (var s) (XTuple [ISlice (Sl None None None); IInt 1])) (VSeq [(VInt 2); (VInt 5)])) ;;;
  check (equals_list (get (var s) (XTuple [ISlice (Sl None None None); IInt 2])) (VSeq [(VInt 3); (VInt 6)])) ;;;
  check (equals_list (get (var s) (XTuple [ISlice (Sl (Some 1) None None); ISlice (Sl (Some 1) None None)])) (VSeq [(VSeq [(VInt 5); (VInt 6)])])) ;;;
  check (equals_list (get (var s) (XTuple [ISlice (Sl None (Some 1) None); ISlice (Sl None (Some 2) None)])) (VSeq [(VSeq [(VInt 1); (VInt 2)])])) ;;;
  check (equals_list (get (var s) (XTuple [IInt 0; ISlice (Sl None None (Some 2))])) (VSeq [(VInt 1); (VInt 3)])) ;;;
  check (equals_list (get (var s) (XTuple [IInt 1; ISlice (Sl None None (Some 2))])) (VSeq [(VInt 4); (VInt 6)])) ;;;
  check (equals_list (get (var s) (XTuple [IInt 0; ISlice (Sl None None (Some (-1)))])) (VSeq [(VInt 3); (VInt 2); (VInt 1)])) ;;;
  check (equals_list (get (var s) (XTuple [ISlice (Sl None None (Some (-1))); ISlice (Sl None None (Some (-1)))])) (VSeq [(VSeq [(VInt 6); (VInt 5); (VInt 4)]); (VSeq [(VInt 3); (VInt 2); (VInt 1)])])) ;;;
  done.
Example test_slicing_FlatCOO_passes : passes test_slicing_FlatCOO.
Proof. vm_compute. reflexivity. Qed.

(** test_storage.py:565-588, CSR *)
Definition test_slicing_CSR : T unit :=
  s <-- (make CCSR (VSeq [(VSeq [(VInt 1); (VInt 2); (VInt 3)]); (VSeq [(VInt 4); (VInt 5); (VInt 6)])]) None) ;;
  set (var s) (XItem (IInt 0)) (VSeq [(VInt 11); (VInt 12); (VInt 13)]) ;;;
  check (equals_list (var s) (VSeq [(VSeq [(VInt 11); (VInt 12); (VInt 13)]); (VSeq [(VInt 4); (VInt 5); (VInt 6)])])) ;;;
  set (var s) (XItem (IInt 1)) (VSeq [(VInt 21); (VInt 22); (VInt 23)]) ;;;
  check (equals_list (var s) (VSeq [(VSeq [(VInt 11); (VInt 12); (VInt 13)]); (VSeq [(VInt 21); (VInt 22); (VInt 23)])])) ;;;
  set (var s) (XTuple [IInt 0; ISlice (Sl (Some 1) None None)]) (VSeq [(VInt 120); (VInt 130)]) ;;;
  check (equals_list (var s) (VSeq [(VSeq [(VInt 11); (VInt 120); (VInt 130)]); (VSeq [(VInt 21); (VInt 22); (VInt 23)])])) ;;;
  set (var s) (XTuple [ISlice (Sl None None None); IInt 1]) (VSeq [(VInt 221); (VInt 222)]) ;;;
  check (equals_list (var s) (VSeq [(VSeq [(VInt 11); (VInt 221); (VInt 130)]); (VSeq [(VInt 21); (VInt 222); (VInt 23)])])) ;;;
  s <-- (make CCSR (VSeq [(VSeq [(VInt 1); (VInt 2); (VInt 3)]); (VSeq [(VInt 4); (VInt 5); (VInt 6)])]) None) ;;
  check (equals_list (get (var s) (XItem (IInt 0))) (VSeq [(VInt 1); (VInt 2); (VInt 3)])) ;;;
  check (equals_list (get (var s) (XItem (IInt 1))) (VSeq [(VInt 4); (VInt 5); (VInt 6)])) ;;;
  check (equals_list (get (var s) (XTuple [ISlice (Sl None None None); IInt 0])) (VSeq [(VInt 1); (VInt 4)])) ;;;
  check (equals_list (get (var s) (XTuple [ISlice (Sl None None None); IInt 1])) (VSeq [(VInt 2); (VInt 5)])) ;;;
  check (equals_list (get (var s) (XTuple [ISlice (Sl None None None); IInt 2])) (VSeq [(VInt 3); (VInt 6)])) ;;;
  check (equals_list (get (var s) (XTuple [ISlice (Sl (Some 1) None None); ISlice (Sl (Some 1) None None)])) (VSeq [(VSeq [(VInt 5); (VInt 6)])])) ;;;
  check (equals_list (get (var s) (XTuple [ISlice (Sl None (Some 1) None); ISlice (Sl None (Some 2) None)])) (VSeq [(VSeq [(VInt 1); (VInt 2)])])) ;;;
  check (equals_list (get (var s) (XTuple [IInt 0; ISlice (Sl None None (Some 2))])) (VSeq [(VInt 1); (VInt 3)])) ;;;
  check (equals_list (get (var s) (XTuple [IInt 1; ISlice (Sl None None (Some 2))])) (VSeq [(VInt 4); (VInt 6)])) ;;;
  check (equals_list (get (var s) (XTuple [IInt 0; ISlice (Sl None None (Some (-1)))])) (VSeq [(VInt 3); (VInt 2); (VInt 1)])) ;;;
  check (equals_list (get (var s) (XTuple [ISlice (Sl None None (Some (-1))); ISlice (Sl None None (Some (-1)))])) (VSeq [(VSeq [(VInt 6); (VInt 5); (VInt 4)]); (VSeq [(VInt 3); (VInt 2); (VInt 1)])])) ;;;
  done.
Example test_slicing_CSR_passes : passes test_slicing_CSR.
Proof. vm_compute. reflexivity. Qed.

(** test_storage.py:565-588, DM *)
Definition test_slicing_DM : T unit :=
  s <-- (make CDM (VSeq [(VSeq [(VInt 1); (VInt 2); (VInt 3)]); (VSeq [(VInt 4); (VInt 5); (VInt 6)])]) None) ;;
  set (var s) (XItem (IInt 0)) (VSeq [(VInt 11); (VInt 12); (VInt 13)]) ;;;
  check (equals_list (var s) (VSeq [(VSeq [(VInt 11); (VInt 12); (VInt 13)]); (VSeq [(VInt 4); (VInt 5); (VInt 6)])])) ;;;
  set (var s) (XItem (IInt 1)) (VSeq [(VInt 21); (VInt 22); (VInt 23)]) ;;;
  check (equals_list (var s) (VSeq [(VSeq [(VInt 11); (VInt 12); (VInt 13)]); (VSeq [(VInt 21); (VInt 22); (VInt 23)])])) ;;;
  set (var s) (XTuple [IInt 0; ISlice (Sl (Some 1) None None)]) (VSeq [(VInt 120); (VInt 130)]) ;;;
  check (equals_list (var s) (VSeq [(VSeq [(VInt 11); (VInt 120); (VInt 130)]); (VSeq [(VInt 21); (VInt 22); (VInt 23)])])) ;;;
  set (var s) (XTuple [ISlice (Sl None None None); IInt 1]) (VSeq [(VInt 221); (VInt 222)]) ;;;
  check (equals_list (var s) (VSeq [(VSeq [(VInt 11); (VInt 221); (VInt 130)]); (VSeq [(VInt 21); (VInt 222); (VInt 23)])])) ;;;
  s <-- (make CDM (VSeq [(VSeq [(VInt 1); (VInt 2); (VInt 3)]); (VSeq [(VInt 4); (VInt 5); (VInt 6)])]) None) ;;
  check (equals_list (get (var s) (XItem (IInt 0))) (VSeq [(VInt 1); (VInt 2); (VInt 3)])) ;;;
  check (equals_list (get (var s) (XItem (IInt 1))) (VSeq [(VInt 4); (VInt 5); (VInt 6)])) ;;;
  check (equals_list (get (var s) (XTuple [ISlice (Sl None None None); IInt 0])) (VSeq [(VInt 1); (VInt 4)])) ;;;
  check (equals_list (get (var s) (XTuple [ISlice (Sl None None None); IInt 1])) (VSeq [(VInt 2); (VInt 5)])) ;;;
  check (equals_list (get (var s) (XTuple [ISlice (Sl None None None); IInt 2])) (VSeq [(VInt 3); (VInt 6)])) ;;;
  check (equals_list (get (var s) (XTuple [ISlice (Sl (Some 1) None None); ISlice (Sl (Some 1) None None)])) (VSeq [(VSeq [(VInt 5); (VInt 6)])])) ;;;
  check (equals_list (get (var s) (XTuple [ISlice (Sl None (Some 1) None); ISlice (Sl None (Some 2) None)])) (VSeq [(VSeq [(VInt 1); (VInt 2)])])) ;;;
  check (equals_list (get (var s) (XTuple [IInt 0; ISlice (Sl None None (Some 2))])) (VSeq [(VInt 1); (VInt 3)])) ;;;
  check (equals_list (get (var s) (XTuple [IInt 1; ISlice (Sl None None (Some 2))])) (VSeq [(VInt 4); (VInt 6)])) ;;;
  check (equals_list (get (var s) (XTuple [IInt 0; ISlice (Sl None None (Some (-1)))])) (VSeq [(VInt 3); (VInt 2); (VInt 1)])) ;;;
  check (equals_list (get (var s) (XTuple [ISlice (Sl None None (Some (-1))); ISlice (Sl None None (Some (-1)))])) (VSeq [(VSeq [(VInt 6); (VInt 5); (VInt 4)]); (VSeq [(VInt 3); (VInt 2); (VInt 1)])])) ;;;
  done.
Example test_slicing_DM_passes : passes test_slicing_DM.
Proof. vm_compute. reflexivity. Qed.


(** Conversions in a program with several threads: X.fromobject(s), s.as_X() and
    the like read the elements of [s] one list access at a time (as in Threads.v),
    and then put the values read into lists nobody else has. *)
From Verif Require Import Py SliceTools Basics Storage Threads.
From Coq Require Import List.
Import ListNotations.

(** The reads of the loop of fromobject over an array: storage.py:472-474,
    685-687, 764-766.  The lists the loop appends to are those of the new array,
    which no other thread has; only the accesses to the source are seen. *)
Definition copy_t (s : storage) : prog (list pyval) :=
  mapM_t (get_value_t (SrcSto s)) (cart (shape_of s)).

(** The value the loop has read for index [i].  storage.py:474, 688, 767. *)
Fixpoint value_read (ixs : list (list Z)) (xs : list pyval) (i : list Z) : res pyval :=
  match ixs, xs with
  | j :: ixs', x :: xs' => if lex_eqb j i then Ok x else value_read ixs' xs' i
  | _, _ => Raise OutOfModel
  end.

(** fromobject of the classes other than DM after the shortcuts:
    storage.py:462-478, 607-611, 675-698, 753-777, 822-831. *)
Definition build (c : cls) (get : list Z -> res pyval) (shape : list Z) (su u : pyval) (h : heap)
    : res (storage * heap) :=
  match c with
  | CBuffer => '(b, h1) <- buffer_build get shape su u h ;; Ok (SBuffer b, h1)
  | CStrided => '(t, h1) <- strided_build get shape su u h ;; Ok (SStrided t, h1)
  | CCOO => coo_build get shape su u h
  | CFlatCOO => flatcoo_build get shape su u h
  | CCSR => '(s, h1) <- coo_build get shape su u h ;;
            match s with SCOO sh ind d => csr_of_coo h1 sh ind d | _ => Raise OutOfModel end
  | CC2SR => Raise AttributeError
  | CDM => Raise OutOfModel
  end.

(** The new array, from the values read.  storage.py:427-440. *)
Definition copy_of (c : cls) (s : storage) (u : pyval) (xs : list pyval) (h : heap) : res (storage * heap) :=
  build c (value_read (cart (shape_of s)) xs) (shape_of s) (unspecified_of s) u h.

(** == in a program with several threads.  The slices of the lists that
    Buffer.__eq__ compares are taken one after the other, each at one moment:
    taking a slice of a list is one step of the interpreter.  The lists the two
    slices give are nobody else's, so the rest of the comparison is not affected
    by other threads. *)
From Verif Require Import Py SliceTools Basics Storage.
From Coq Require Import List.
Import ListNotations.

(** Buffer.__eq__: storage.py:538-545, with the slice of self taken in [g] and
    that of other in [h].  (When the sizes differ no slice is taken, and the
    answer does not depend on the lists.) *)
Definition buf_eq_at (g h : heap) (a b : buffer) : res bool :=
  la <- cell g (baddr a) ;;
  lb <- cell h (baddr b) ;;
  Ok ((bsize a =? bsize b)
      && vlist_eqb (pyslice_list la (boff a) (boff a + bsize a))
                   (pyslice_list lb (boff b) (boff b + bsize b))
      && veqb (bunspec a) (bunspec b)).

(** Storage.__eq__ on Strided: storage.py:294-297 with 621-622. *)
Definition strided_eq_at (g h : heap) (s t : strided) : res bool :=
  if lex_eqb (sshape s) (sshape t) && lex_eqb (sstrides s) (sstrides t)
  then buf_eq_at g h (sdata s) (sdata t) else Ok false.

(** Storage.__eq__: storage.py:294-297, with the _get_object_data of the classes
    (621-622, 710-711, 789-790, 859-860, 920-922, 1069-1070).  [H k] is the heap
    when the comparison takes its slice number [k].  The tuples are compared item
    by item up to the first difference.  Simplification: [s] and [t] are
    different objects and have no Buffer object in common; a common one is taken
    for equal without looking at its list, and so is s == s except for Buffer. *)
Fixpoint storage_eq_at (H : nat -> heap) (s t : storage) {struct s} : res bool :=
  match s, t with
  | SBuffer a, SBuffer b => buf_eq_at (H 0%nat) (H 1%nat) a b
  | SStrided a, SStrided b => strided_eq_at (H 0%nat) (H 1%nat) a b
  | SCOO sh i d, SCOO sh' i' d' =>
      if lex_eqb sh sh'
      then andM (strided_eq_at (H 0%nat) (H 1%nat) i i') (buf_eq_at (H 2%nat) (H 3%nat) d d')
      else Ok false
  | SFlatCOO sh f d, SFlatCOO sh' f' d' =>
      if lex_eqb sh sh'
      then andM (buf_eq_at (H 0%nat) (H 1%nat) f f') (buf_eq_at (H 2%nat) (H 3%nat) d d')
      else Ok false
  | SCSR sh c k d, SCSR sh' c' k' d' =>
      if lex_eqb sh sh'
      then andM (buf_eq_at (H 0%nat) (H 1%nat) c c')
             (andM (buf_eq_at (H 2%nat) (H 3%nat) k k') (buf_eq_at (H 4%nat) (H 5%nat) d d'))
      else Ok false
  | SC2SR sh n a b c d, SC2SR sh' n' a' b' c' d' =>
      if lex_eqb sh sh' && (n =? n')
      then andM (buf_eq_at (H 0%nat) (H 1%nat) a a')
             (andM (buf_eq_at (H 2%nat) (H 3%nat) b b')
                (andM (buf_eq_at (H 4%nat) (H 5%nat) c c') (buf_eq_at (H 6%nat) (H 7%nat) d d')))
      else Ok false
  | SDM sh rd _ rs ro d, SDM sh' rd' _ rs' ro' d' =>
      if lex_eqb sh sh' && zll_eqb rd rd' && zll_eqb rs rs' && lex_eqb ro ro'
      then storage_eq_at H d d' else Ok false
  | _, _ => Ok false
  end.

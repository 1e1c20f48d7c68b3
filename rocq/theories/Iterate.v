(** Loops over elements() and comparisons with equal() in a program with several
    threads: the loop reads, for one element after the other, its index and then
    its value, one list access at a time (as in Threads.v). *)
From Verif Require Import Py SliceTools Basics Storage Threads.
From Coq Require Import List.
Import ListNotations.

(** [yield index, self.data[data_pos]]: storage.py:409. *)
Definition item_t (d : buffer) (ix : list Z) (pos : Z) : prog (key * pyval) :=
  v <~ buf_get_t d pos ;; Ret (Ok (KTup ix, v)).

(** The rows of a CSR array: storage.py:862-866. *)
Fixpoint csr_elements_t (crow col d : buffer) (rows : list Z) : prog (list (key * pyval)) :=
  match rows with
  | [] => Ret (Ok [])
  | r :: rs =>
      a <~ buf_int_t crow r ;;
      b <~ buf_int_t crow (r + 1) ;;
      l <~ mapM_t (fun pos => c <~ buf_int_t col pos ;; item_t d [r; c] pos) (zrange a b) ;;
      rest <~ csr_elements_t crow col d rs ;;
      Ret (Ok (l ++ rest))
  end.

(** elements(): storage.py:405-409 with the indices_and_data_position methods
    592-595 (Buffer), 637-640 (Strided), 713-716, 792-798, 862-866 (the sparse
    classes), 1072-1078 (DM).  The result is the list of all pairs the loop is
    given; what the caller does with them in between is not seen here. *)
Definition elements_t (s : storage) : prog (list (key * pyval)) :=
  match s with
  | SBuffer b =>
      mapM_t (fun p => Get (baddr b) p (fun v => Ret (Ok (KInt (p - boff b), v))))
             (zrange (boff b) (boff b + bsize b))
  | SStrided t =>
      mapM_t (fun ix => p <~ Ret (get_position ix (sshape t) (sstrides t)) ;; item_t (sdata t) ix p)
             (cart (sshape t))
  | SCOO _ indices d =>
      n <~ Ret (pyget (sshape indices) 1) ;;
      mapM_t (fun pos =>
                rows <~ Ret (pyget (sshape indices) 0) ;;
                ix <~ mapM_t (fun j => strided_int_t indices [j; pos]) (zseq rows) ;;
                item_t d ix pos) (zseq n)
  | SFlatCOO shape findices d =>
      sd <~ Ret (init_diophantine (make_strides shape) (Some shape)) ;;
      mapM_t (fun pos =>
                f <~ buf_int_t findices pos ;;
                i <~ Ret (solve_index_data f shape sd) ;;
                ix <~ Ret (match i with Some ix => Ok ix | None => Raise TypeError end) ;;
                item_t d ix pos) (zseq (bsize findices))
  | SCSR shape crow col d => n <~ Ret (pyget shape 0) ;; csr_elements_t crow col d (zseq n)
  | SC2SR _ _ _ _ _ _ => Ret (Raise NotImplementedError)
  | SDM shape rdims rshapes rstrides roffset data =>
      mapM_t (fun ix =>
                r <~ Ret (reduce_index rshapes rdims rstrides roffset ix) ;;
                v <~ get_elem_t data r ;; Ret (Ok (KTup ix, v))) (cart shape)
  end.

(** equal() of two arrays: storage.py:331-348.  The two dicts belong to the call. *)
Definition equal_t (s t : storage) : prog bool :=
  d1 <~ elements_t s ;;
  d2 <~ elements_t t ;;
  Ret (Ok (dict_eqb d1 d2)).

(** Slices of sparse arrays in a program with several threads: [s[ix]] lists the
    stored indices, sorts those in the slice and then reads their values, one list
    access at a time (as in Threads.v); the lists of the new array are its own. *)
From Verif Require Import Py SliceTools Basics Storage Threads.
From Coq Require Import List.
Import ListNotations.

(** indices_and_data_position of COO, FlatCOO and CSR: storage.py:713-716,
    792-798, 862-866. *)
Definition coo_iad_t (indices : strided) : prog (list (list Z * Z)) :=
  n <~ Ret (pyget (sshape indices) 1) ;;
  rows <~ Ret (pyget (sshape indices) 0) ;;
  mapM_t (fun pos =>
            ix <~ mapM_t (fun j => strided_int_t indices [j; pos]) (zseq rows) ;;
            Ret (Ok (ix, pos))) (zseq n).
Definition flatcoo_iad_t (shape : list Z) (findices : buffer) : prog (list (list Z * Z)) :=
  sd <~ Ret (init_diophantine (make_strides shape) (Some shape)) ;;
  mapM_t (fun pos =>
            f <~ buf_int_t findices pos ;;
            i <~ Ret (solve_index_data f shape sd) ;;
            Ret (match i with Some ix => Ok (ix, pos) | None => Raise TypeError end))
         (zseq (bsize findices)).
Fixpoint csr_iad_rows_t (crow col : buffer) (rows : list Z) : prog (list (list Z * Z)) :=
  match rows with
  | [] => Ret (Ok [])
  | r :: rs =>
      a <~ buf_int_t crow r ;;
      b <~ buf_int_t crow (r + 1) ;;
      l <~ mapM_t (fun pos => c <~ buf_int_t col pos ;; Ret (Ok ([r; c], pos))) (zrange a b) ;;
      rest <~ csr_iad_rows_t crow col rs ;;
      Ret (Ok (l ++ rest))
  end.
Definition sparse_iad_t (s : storage) : prog (list (list Z * Z)) :=
  match s with
  | SCOO _ ind _ => coo_iad_t ind
  | SFlatCOO sh f _ => flatcoo_iad_t sh f
  | SCSR sh crow col _ => n <~ Ret (pyget sh 0) ;; csr_iad_rows_t crow col (zseq n)
  | _ => Ret (Raise NotImplementedError)
  end.

(** The shape, strides and offset of the slice: storage.py:363, 369. *)
Definition slice_view (s : storage) (ix : pyindex) : res (list Z * list Z * Z) :=
  nix <- normalize_index ix (shape_of s) ;;
  index_strided nix (shape_of s) (strides_of s) 0.

(** The reads of the loops of get_slice: storage.py:362-370, 721-728, 804-812,
    871-883.  The loop runs over a sorted list, so all indices are read before the
    first value.  The result is the list of the slice indices with the values read. *)
Definition slice_t (s : storage) (ix : pyindex) : prog (list (list Z * pyval)) :=
  pbind (Ret (c <- slice_view s ix ;; d <- data_buffer s ;; Ok (c, d)))
    (fun '((sh, st, off), d) =>
       l <~ sparse_iad_t s ;;
       l <~ Ret (slice_iad (shape_of s) (Ok l) sh st off) ;;
       mapM_t (fun p => v <~ buf_get_t d (snd p) ;; Ret (Ok (fst p, v))) (sorted_pairs l)).

(** What get_slice makes of them: storage.py:729-734, 813-815, 884-887.  A slice of
    a CSR array with one axis is made otherwise (storage.py:872-873). *)
Definition slice_build (s : storage) (shape : list Z) (u : pyval) (E : list (list Z * pyval)) (h : heap)
    : res (storage * heap) :=
  match s with
  | SCOO _ _ _ =>
      let cols := columns (length shape) (map fst E) in
      c0 <- pyget cols 0 ;;
      let ishape := [zlen shape; zlen c0] in
      let '(a, h1) := alloc h (map VInt (concat cols)) in
      ib <- mk_buffer h1 (product ishape) 0 a VNone ;;
      indices <- mk_strided ishape (make_strides ishape) ib ;;
      '(d, h2) <- new_buffer h1 (map snd E) u ;;
      r <- mk_coo shape indices d ;;
      Ok (r, h2)
  | SFlatCOO _ _ _ =>
      fs <- mapM (fun e => get_position (fst e) shape (make_strides shape)) E ;;
      '(d, h1) <- new_buffer h (map snd E) u ;;
      '(f, h2) <- new_buffer h1 (map VInt fs) VNone ;;
      r <- mk_flatcoo shape f d ;;
      Ok (r, h2)
  | SCSR _ _ _ _ =>
      _ <- assert_ (zlen shape =? 2) ;;
      '(d, h1) <- new_buffer h (map snd E) u ;;
      n <- pyget shape 0 ;;
      crow <- compress_indices (map (fun e => nth 0 (fst e) 0) E) n ;;
      '(cb, h2) <- buffer_of_seq (ints crow) h1 ;;
      '(col, h3) <- buffer_of_seq (ints (map (fun e => nth 1 (fst e) 0) E)) h2 ;;
      r <- mk_csr shape cb col d ;;
      Ok (r, h3)
  | _ => Raise NotImplementedError
  end.
Definition slice_of (s : storage) (ix : pyindex) (E : list (list Z * pyval)) (h : heap) : res (storage * heap) :=
  '(sh, _, _) <- slice_view s ix ;; slice_build s sh (unspecified_of s) E h.

(** A thread as in Threads.v, beside a thread that slices: the values it has read,
    without indices. *)
Definition unlabelled (m : prog (list pyval)) : prog (list (list Z * pyval)) :=
  xs <~ m ;; Ret (Ok (map (fun x => ([], x)) xs)).

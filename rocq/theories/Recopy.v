(** copy(unspecified=u), with another u than the array's own, in a program with
    several threads: the values are read one after the other, one list access at a
    time (as in Threads.v); the list of the new array is its own. *)
From Verif Require Import Py SliceTools Basics Storage Threads Iterate.
From Coq Require Import List.
Import ListNotations.

(** The reads of the loop of Buffer.copy: storage.py:519-524. *)
Definition buf_recopy_t (b : buffer) : prog (list pyval) :=
  mapM_t (fun p => Get (baddr b) p (fun v => Ret (Ok v))) (zrange (boff b) (boff b + bsize b)).

(** The reads of copy: storage.py:313-318 (the last of the constructor arguments
    is copied), 511-525 (Buffer), 632 (Strided, over elements()).  The values read,
    in the order of the reads. *)
Fixpoint recopy_t (s : storage) : prog (list pyval) :=
  match s with
  | SBuffer b => buf_recopy_t b
  | SStrided t => l <~ elements_t (SStrided t) ;; Ret (Ok (map snd l))
  | SCOO _ _ d | SFlatCOO _ _ d | SCSR _ _ _ d | SC2SR _ _ _ _ _ d => buf_recopy_t d
  | SDM _ _ _ _ _ d => recopy_t d
  end.

(** The new Buffer, from the values read: storage.py:522-525. *)
Definition buf_recopy_of (b : buffer) (u : pyval) (xs : list pyval) (h : heap) : res (buffer * heap) :=
  new_buffer h (map (conv_value (bunspec b) u) xs) u.

(** The new Strided, from the values read: storage.py:629-635. *)
Definition strided_recopy_of (t : strided) (u : pyval) (xs : list pyval) (h : heap) : res (strided * heap) :=
  let size := product (sshape t) in
  let '(a, h1) := alloc h (repeat u (Z.to_nat size)) in
  data <- mk_buffer h1 size 0 a u ;;
  result <- mk_strided (sshape t) (make_strides (sshape t)) data ;;
  h2 <- (fix go (l : list (list Z * pyval)) (h : heap) : res heap :=
           match l with
           | [] => Ok h
           | (ix, v) :: r =>
               h' <- strided_set_elem h result ix (conv_value (bunspec (sdata t)) u v) ;;
               go r h'
           end) (combine (cart (sshape t)) xs) h1 ;;
  Ok (result, h2).

(** The new array, from the values read: storage.py:313-318, with the constructors
    480-502, 613-619, 700-708, 779-787, 833-857, 901-918, 1045-1067. *)
Fixpoint recopy_of (s : storage) (u : pyval) (xs : list pyval) (h : heap) {struct s} : res (storage * heap) :=
  match s with
  | SBuffer b => '(b', h1) <- buf_recopy_of b u xs h ;; Ok (SBuffer b', h1)
  | SStrided t => '(t', h1) <- strided_recopy_of t u xs h ;; Ok (SStrided t', h1)
  | SCOO sh ind d => '(d', h1) <- buf_recopy_of d u xs h ;; r <- mk_coo sh ind d' ;; Ok (r, h1)
  | SFlatCOO sh f d => '(d', h1) <- buf_recopy_of d u xs h ;; r <- mk_flatcoo sh f d' ;; Ok (r, h1)
  | SCSR sh crow col d => '(d', h1) <- buf_recopy_of d u xs h ;; r <- mk_csr sh crow col d' ;; Ok (r, h1)
  | SC2SR sh ch rl rp col d =>
      '(d', h1) <- buf_recopy_of d u xs h ;;
      _ <- assert_ (zlen sh =? 2) ;;
      _ <- assert_ (bsize rl =? bsize rp) ;;
      n <- pyget sh 0 ;;
      _ <- assert_ (n =? bsize rl) ;;
      Ok (SC2SR sh ch rl rp col d', h1)
  | SDM sh rd _ rs ro d =>
      '(d', h1) <- recopy_of d u xs h ;;
      r <- mk_dm sh rd rs ro d' ;;
      Ok (r, h1)
  end.

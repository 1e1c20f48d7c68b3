(** Several threads working on arrays at the same time.  The library takes no
    locks, so between any two accesses to a list another thread may run; a single
    access to a list is atomic in CPython.  Here [s[i]] for one element and
    [s[ix] = value] are written once more, function by function as in Storage.v,
    but as programs that perform one list access at a time.  [run_setitem] and
    [run_get_elem] (ThreadFacts.v) show that run alone they are the functions of
    Storage.v. *)
From Verif Require Import Py SliceTools Basics Storage.

(** A program: finished, or about to read, or about to write, element [p] of the
    list [a].  The accesses to the lists of Buffers: storage.py:553-590. *)
Inductive prog (A : Type) : Type :=
| Ret (r : res A)
| Get (a : nat) (p : Z) (k : pyval -> prog A)
| Put (a : nat) (p : Z) (v : pyval) (k : prog A).
Arguments Ret {A} r.
Arguments Get {A} a p k.
Arguments Put {A} a p v k.

Fixpoint pbind {A B} (m : prog A) (f : A -> prog B) : prog B :=
  match m with
  | Ret (Ok x) => f x
  | Ret (Raise e) => Ret (Raise e)
  | Get a p k => Get a p (fun v => pbind (k v) f)
  | Put a p v k => Put a p v (pbind k f)
  end.
Declare Scope prog_scope.
Notation "x <~ m ;; k" := (pbind m (fun x => k))
  (at level 61, m at next level, right associativity) : prog_scope.
Open Scope prog_scope.

(** [l[p]] and [l[p] = v] for the list [a].  storage.py:579-580, 585-586, 589-590. *)
Definition hget (h : heap) (a : nat) (p : Z) : res pyval := l <- cell h a ;; pyget l p.
Definition hput (h : heap) (a : nat) (p : Z) (v : pyval) : res heap :=
  l <- cell h a ;; l' <- pyset l p v ;; Ok (set_nth a l' h).

(** One access.  No lines in /repo: the interpreter. *)
Definition advance {A} (h : heap) (m : prog A) : heap * prog A :=
  match m with
  | Ret r => (h, Ret r)
  | Get a p k => match hget h a p with Ok v => (h, k v) | Raise e => (h, Ret (Raise e)) end
  | Put a p v k => match hput h a p v with Ok h' => (h', k) | Raise e => (h, Ret (Raise e)) end
  end.

(** The accesses of several threads in the order of a schedule: the numbers of
    the threads that get the next turn.  A thread that has finished does nothing
    with its turn.  No lines in /repo: the interpreter. *)
Fixpoint exec {A} (sched : list nat) (h : heap) (ts : list (prog A)) : heap * list (prog A) :=
  match sched with
  | [] => (h, ts)
  | j :: r =>
      match nth_error ts j with
      | None => exec r h ts
      | Some t => let '(h', t') := advance h t in exec r h' (set_nth j t' ts)
      end
  end.

(** A program with nobody else around.  No lines in /repo: the interpreter. *)
Fixpoint run {A} (m : prog A) (h : heap) : heap * res A :=
  match m with
  | Ret r => (h, r)
  | Get a p k => match hget h a p with Ok v => run (k v) h | Raise e => (h, Raise e) end
  | Put a p v k => match hput h a p v with Ok h' => run k h' | Raise e => (h, Raise e) end
  end.

(** * Reading one element *)

(** Buffer.__getitem__ for an int: storage.py:579-580. *)
Definition buf_get_t (b : buffer) (i : Z) : prog pyval := Get (baddr b) (boff b + i) (fun v => Ret (Ok v)).
Definition buf_int_t (b : buffer) (i : Z) : prog Z := v <~ buf_get_t b i ;; Ret (as_int v).

(** Storage.__getitem__ of Strided for an element: storage.py:362-368, 648. *)
Definition strided_elem_t (t : strided) (index : list Z) : prog pyval :=
  nix <~ Ret (normalize_index (int_tuple index) (sshape t)) ;;
  if is_element_index nix (sshape t) then
    p <~ Ret (get_position (int_items nix) (sshape t) (sstrides t)) ;;
    buf_get_t (sdata t) p
  else Ret (Raise OutOfModel).
Definition strided_int_t (t : strided) (index : list Z) : prog Z :=
  v <~ strided_elem_t t index ;; Ret (as_int v).

(** The search loops: storage.py:208-271. *)
Fixpoint bsearch_t (fuel : nat) (left right : Z) (d : Z -> prog Z) : prog (option Z) :=
  match fuel with
  | O => Ret (Raise OutOfFuel)
  | S f =>
      if right <? left then Ret (Ok None)
      else
        let pos := (left + right) / 2 in
        c <~ d pos ;;
        if c =? 0 then Ret (Ok (Some pos))
        else if c <? 0 then bsearch_t f (pos + 1) right d
        else bsearch_t f left (pos - 1) d
  end.
Fixpoint coo_diff_t (indices : strided) (pos : Z) (js : list Z) (index : list Z) : prog Z :=
  match js with
  | [] => Ret (Ok 0)
  | j :: r =>
      v <~ strided_int_t indices [j; pos] ;;
      i <~ Ret (pyget index j) ;;
      if v - i =? 0 then coo_diff_t indices pos r index else Ret (Ok (v - i))
  end.
Definition get_coo_position_t (index shape : list Z) (indices : strided) : prog (option Z) :=
  n <~ Ret (pyget (sshape indices) 1) ;;
  bsearch_t (search_fuel 0 (n - 1)) 0 (n - 1)
            (fun pos => coo_diff_t indices pos (zseq (zlen shape)) index).
Definition get_flatcoo_position_t (findex : Z) (findices : buffer) : prog (option Z) :=
  bsearch_t (search_fuel 0 (bsize findices - 1)) 0 (bsize findices - 1)
            (fun pos => v <~ buf_int_t findices pos ;; Ret (Ok (v - findex))).
Definition get_csr_position_t (index : list Z) (crow col : buffer) : prog (option Z) :=
  match index with
  | [r; c] =>
      left <~ buf_int_t crow r ;;
      right1 <~ buf_int_t crow (r + 1) ;;
      let right := right1 - 1 in
      bsearch_t (search_fuel left right) left right
                (fun pos => v <~ buf_int_t col pos ;; Ret (Ok (v - c)))
  | _ => Ret (Raise ValueError)
  end.

(** get_data_position: storage.py:648, 718, 800, 868, 356. *)
Definition flat_data_position_t (s : storage) (index : list Z) : prog (option Z) :=
  match s with
  | SStrided t => p <~ Ret (get_position index (sshape t) (sstrides t)) ;; Ret (Ok (Some p))
  | SCOO sh ind _ => get_coo_position_t index sh ind
  | SFlatCOO sh f _ =>
      p <~ Ret (get_position index sh (make_strides sh)) ;; get_flatcoo_position_t p f
  | SCSR _ crow col _ => get_csr_position_t index crow col
  | _ => Ret (Raise NotImplementedError)
  end.
Definition flat_get_elem_t (s : storage) (index : list Z) : prog pyval :=
  p <~ flat_data_position_t s index ;;
  match p with
  | None => Ret (Ok (unspecified_of s))
  | Some pos => d <~ Ret (data_buffer s) ;; buf_get_t d pos
  end.

(** __getitem__ for one element: storage.py:362-368, 579-580, 1083-1090.  An
    index of the wrong length gives a slice, which is outside this model. *)
Fixpoint get_elem_t (s : storage) (index : list Z) : prog pyval :=
  match s with
  | SBuffer b => match index with [i] => buf_get_t b i | _ => Ret (Raise AssertionError) end
  | SStrided t => strided_elem_t t index
  | SDM shape rdims rshapes rstrides roffset data =>
      nix <~ Ret (normalize_index (int_tuple index) shape) ;;
      if is_element_index nix shape then
        r <~ Ret (reduce_index rshapes rdims rstrides roffset (int_items nix)) ;;
        get_elem_t data r
      else Ret (Raise OutOfModel)
  | _ =>
      nix <~ Ret (normalize_index (int_tuple index) (shape_of s)) ;;
      if is_element_index nix (shape_of s) then flat_get_elem_t s (int_items nix)
      else Ret (Raise OutOfModel)
  end.

(** get_value: storage.py:83-94. *)
Definition get_value_t (src : source) (index : list Z) : prog pyval :=
  match src with
  | SrcSeq v => Ret (seq_value v index)
  | SrcSto s => match index with [] => Ret (Raise OutOfModel) | _ => get_elem_t s index end
  end.

(** * Assignment: storage.py:350-405 *)

Fixpoint for_t {X} (l : list X) (body : X -> prog unit) : prog unit :=
  match l with
  | [] => Ret (Ok tt)
  | x :: r => _ <~ body x ;; for_t r body
  end.
Fixpoint mapM_t {X Y} (f : X -> prog Y) (l : list X) : prog (list Y) :=
  match l with
  | [] => Ret (Ok [])
  | x :: r => y <~ f x ;; ys <~ mapM_t f r ;; Ret (Ok (y :: ys))
  end.
Definition generator_t (X : Type) := (X -> prog unit) -> prog unit.

(** Buffer.__setitem__: storage.py:582-586. *)
Definition buf_write_t (b : buffer) (p : Z) (v : pyval) : prog unit :=
  Put (baddr b) (boff b + p) v (Ret (Ok tt)).
Definition buffer_setitem_t (b : buffer) (ix : pyindex) (value : source) : prog unit :=
  match buf_complete_index ix with
  | Raise e => Ret (Raise e)
  | Ok (IInt z) =>
      match value with
      | SrcSeq v => buf_write_t b z v
      | SrcSto _ => Ret (Raise OutOfModel)
      end
  | Ok _ => Ret (Raise AssertionError)
  end.

(** The generators: storage.py:642-646, 713-716, 792-798, 862-866, 1072-1078. *)
Definition strided_slice_gen_t (shape strides : list Z) (offset : Z) : generator_t (list Z * Z) :=
  fun body =>
    for_t (cart shape) (fun ix => p <~ Ret (get_position ix shape strides) ;; body (ix, offset + p)).
Definition coo_gen_t (indices : strided) : generator_t (list Z * Z) :=
  fun body =>
    n <~ Ret (pyget (sshape indices) 1) ;;
    for_t (zseq n) (fun pos =>
      rows <~ Ret (pyget (sshape indices) 0) ;;
      ix <~ mapM_t (fun j => strided_int_t indices [j; pos]) (zseq rows) ;;
      body (ix, pos)).
Definition flatcoo_gen_t (shape : list Z) (findices : buffer) : generator_t (list Z * Z) :=
  fun body =>
    sd <~ Ret (init_diophantine (make_strides shape) (Some shape)) ;;
    for_t (zseq (bsize findices)) (fun pos =>
      f <~ buf_int_t findices pos ;;
      i <~ Ret (solve_index_data f shape sd) ;;
      ix <~ Ret (match i with Some ix => Ok ix | None => Raise TypeError end) ;;
      body (ix, pos)).
Definition csr_gen_t (shape : list Z) (crow col : buffer) : generator_t (list Z * Z) :=
  fun body =>
    n <~ Ret (pyget shape 0) ;;
    for_t (zseq n) (fun r =>
      a <~ buf_int_t crow r ;;
      b <~ buf_int_t crow (r + 1) ;;
      for_t (zrange a b) (fun pos => c <~ buf_int_t col pos ;; body ([r; c], pos))).
Definition sparse_gen_t (s : storage) : generator_t (list Z * Z) :=
  match s with
  | SCOO _ ind _ => coo_gen_t ind
  | SFlatCOO sh f _ => flatcoo_gen_t sh f
  | SCSR sh crow col _ => csr_gen_t sh crow col
  | _ => fun _ => Ret (Raise NotImplementedError)
  end.
Definition dm_gen_t (shape : list Z) (rdims rshapes rstrides : list (list Z)) (roffset : list Z)
    : generator_t (list Z * list Z) :=
  fun body =>
    for_t (cart shape) (fun ix =>
      r <~ Ret (reduce_index rshapes rdims rstrides roffset ix) ;; body (ix, r)).

(** slice_indices_and_data_position: storage.py:393-403. *)
Definition slice_gen_t {P} (shape0 : list Z) (g : generator_t (list Z * P))
    (shape strides : list Z) (offset : Z) : generator_t (list Z * P) :=
  fun body =>
    sd <~ Ret (init_diophantine strides (Some shape)) ;;
    g (fun item =>
         sp <~ Ret (get_position (fst item) shape0 (make_strides shape0)) ;;
         o <~ Ret (solve_index_data (sp - offset) shape sd) ;;
         match o with
         | Some six => body (six, snd item)
         | None => Ret (Ok tt)
         end).

(** The loop body, storage.py:354: the value is read first, then written. *)
Definition put_t {P} (write : P -> pyval -> prog unit) (value : source) (item : list Z * P)
    : prog unit :=
  x <~ get_value_t value (fst item) ;; write (snd item) x.

(** Storage.__setitem__: storage.py:350-354. *)
Fixpoint setitem_t (s : storage) (ix : pyindex) (value : source) {struct s} : prog unit :=
  match s with
  | SBuffer b => buffer_setitem_t b ix value
  | SStrided t =>
      pbind (Ret (nix <- normalize_index ix (sshape t) ;;
                  index_strided nix (sshape t) (sstrides t) 0))
        (fun '(sh, st, off) =>
           strided_slice_gen_t sh st off (put_t (buf_write_t (sdata t)) value))
  | SDM shape rdims rshapes rstrides roffset data =>
      pbind (Ret (nix <- normalize_index ix shape ;;
                  index_strided nix shape (make_strides shape) 0))
        (fun '(sh, st, off) =>
           slice_gen_t shape (dm_gen_t shape rdims rshapes rstrides roffset) sh st off
             (put_t (fun r v => setitem_t data (int_tuple r) (SrcSeq v)) value))
  | _ =>
      pbind (Ret (nix <- normalize_index ix (shape_of s) ;;
                  '(sh, st, off) <- index_strided nix (shape_of s) (strides_of s) 0 ;;
                  d <- data_buffer s ;;
                  Ok (sh, st, off, d)))
        (fun '(sh, st, off, d) =>
           slice_gen_t (shape_of s) (sparse_gen_t s) sh st off (put_t (buf_write_t d) value))
  end.

(** * What a thread does *)

(** A thread performs statements in order, [x = s[i]] for an element or
    [s[ix] = value]; an exception ends it.  Its result is what it has read.
    storage.py:350-370. *)
Inductive op :=
| Read (s : storage) (i : list Z)
| Assign (s : storage) (ix : pyindex) (value : source).

Fixpoint thread (ops : list op) : prog (list pyval) :=
  match ops with
  | [] => Ret (Ok [])
  | Read s i :: r => x <~ get_elem_t s i ;; xs <~ thread r ;; Ret (Ok (x :: xs))
  | Assign s ix value :: r => _ <~ setitem_t s ix value ;; thread r
  end.

(** The same statements in a program without threads.  storage.py:350-370. *)
Fixpoint perform (h : heap) (ops : list op) : heap * res (list pyval) :=
  match ops with
  | [] => (h, Ok [])
  | Read s i :: r =>
      match get_elem h s i with
      | Ok x => match perform h r with (h', Ok xs) => (h', Ok (x :: xs)) | o => o end
      | Raise e => (h, Raise e)
      end
  | Assign s ix value :: r =>
      match setitem h s ix value with
      | (h', Ok _) => perform h' r
      | (h', Raise e) => (h', Raise e)
      end
  end.
(** Several such programs one after the other.  storage.py:350-370. *)
Fixpoint perform_all (h : heap) (programs : list (list op)) : heap :=
  match programs with
  | [] => h
  | ops :: r => perform_all (fst (perform h ops)) r
  end.

(** The places where the code compares array elements, for any meaning of [==].

    Storage.v identifies [==] with being the same value.  In Python 0, 0.0 and
    False are equal but different, and NaN is not equal to itself.  Here every
    function of gcs/storage.py that compares elements is modelled again with
    [==] as a parameter, an arbitrary relation on values; with the equality of
    Storage.v they are the functions of Storage.v (PropValues.v).  Reading,
    slicing and assigning elements compare no values and are those of Storage.v. *)
From Coq Require Import ZifyBool.
From Verif Require Import Py SliceTools Basics Storage.

Section Equality.

(** x == y *)
Variable eqv : pyval -> pyval -> bool.

(** The loop of the fromobject methods: storage.py:472-477 (Buffer), 685-695
    (COO), 764-774 (FlatCOO); the elements converted by lines 474-476, 688-690,
    767-769. *)
Definition conv_eq (su u v : pyval) : pyval := if eqv v su then u else v.
Fixpoint collect_eq (get : list Z -> res pyval) (su u : pyval) (idxs : list (list Z))
    : res (list (list Z * pyval)) :=
  match idxs with
  | [] => Ok []
  | i :: r =>
      v <- get i ;;
      rest <- collect_eq get su u r ;;
      Ok ((i, conv_eq su u v) :: rest)
  end.

(** The [continue] of storage.py:691-692, 770-771. *)
Definition specified_eq (u : pyval) (l : list (list Z * pyval)) : list (list Z * pyval) :=
  filter (fun p => negb (eqv (snd p) u)) l.

(** Buffer.fromobject after the shortcut: storage.py:462-478. *)
Definition buffer_build_eq (get : list Z -> res pyval) (shape : list Z) (su u : pyval) (h : heap)
    : res (buffer * heap) :=
  vs <- collect_eq get su u (cart shape) ;;
  new_buffer h (map snd vs) u.

(** Strided.fromobject after the shortcut: storage.py:607-611. *)
Definition strided_build_eq (get : list Z -> res pyval) (shape : list Z) (su u : pyval) (h : heap)
    : res (strided * heap) :=
  '(b, h1) <- buffer_build_eq get shape su u h ;;
  t <- mk_strided shape (make_strides shape) b ;;
  Ok (t, h1).

(** Buffer.fromobject and Strided.fromobject on sequences, default arguments.
    storage.py:457-478, 602-611. *)
Definition buffer_of_seq_eq (v : pyval) (h : heap) : res (buffer * heap) :=
  buffer_build_eq (seq_value v) (seq_shape v) VNone VNone h.
Definition strided_of_seq_eq (v : pyval) (h : heap) : res (strided * heap) :=
  strided_build_eq (seq_value v) (seq_shape v) VNone VNone h.

(** COO.fromobject, general branch: storage.py:675-698. *)
Definition coo_build_eq (get : list Z -> res pyval) (shape : list Z) (su u : pyval) (h : heap)
    : res (storage * heap) :=
  vs <- collect_eq get su u (cart shape) ;;
  let vs := specified_eq u vs in
  '(data, h1) <- new_buffer h (map snd vs) u ;;
  '(indices, h2) <- strided_of_seq_eq (int_rows (columns (length shape) (map fst vs))) h1 ;;
  s <- mk_coo shape indices data ;;
  Ok (s, h2).

(** FlatCOO.fromobject, general branch: storage.py:753-777. *)
Definition flatcoo_build_eq (get : list Z -> res pyval) (shape : list Z) (su u : pyval) (h : heap)
    : res (storage * heap) :=
  vs <- collect_eq get su u (cart shape) ;;
  let vs := specified_eq u vs in
  fs <- mapM (fun p => get_position (fst p) shape (make_strides shape)) vs ;;
  '(data, h1) <- new_buffer h (map snd vs) u ;;
  '(findices, h2) <- new_buffer h1 (map VInt fs) VNone ;;
  s <- mk_flatcoo shape findices data ;;
  Ok (s, h2).

(** Buffer.copy: storage.py:511-525. *)
Definition buf_copy_eq (h : heap) (b : buffer) (u : option pyval) : res (buffer * heap) :=
  let u' := match u with None => bunspec b | Some x => x end in
  l <- cell h (baddr b) ;;
  if eqv u' (bunspec b) then
    new_buffer h (pyslice_list l (boff b) (boff b + bsize b)) u'
  else
    vs <- mapM (pyget l) (zrange (boff b) (boff b + bsize b)) ;;
    new_buffer h (map (conv_eq (bunspec b) u') vs) u'.

(** Strided.copy: storage.py:624-635. *)
Definition strided_copy_eq (h : heap) (t : strided) (u : option pyval) : res (strided * heap) :=
  let su := bunspec (sdata t) in
  let u' := match u with None => su | Some x => x end in
  let size := product (sshape t) in
  let '(a, h1) := alloc h (repeat u' (Z.to_nat size)) in
  data <- mk_buffer h1 size 0 a u' ;;
  result <- mk_strided (sshape t) (make_strides (sshape t)) data ;;
  els <- strided_elements h t ;;
  h2 <- (fix go (l : list (list Z * pyval)) (h : heap) : res heap :=
           match l with
           | [] => Ok h
           | (ix, v) :: r =>
               h' <- strided_set_elem h result ix (conv_eq su u' v) ;;
               go r h'
           end) els h1 ;;
  Ok (result, h2).

(** Buffer.fromobject: storage.py:457-478. *)
Definition buffer_fromobject_eq (h : heap) (src : source) (a : fo_args) : res (buffer * heap) :=
  match src, is_default a with
  | SrcSto (SBuffer b), true => Ok (b, h)
  | _, _ => buffer_build_eq (fo_get h src a) (fo_get_shape src a)
                            (get_unspecified src) (fo_get_unspec src a) h
  end.

(** Strided.fromobject: storage.py:602-611. *)
Definition strided_fromobject_eq (h : heap) (src : source) (a : fo_args) : res (strided * heap) :=
  match src, is_default a with
  | SrcSto (SStrided t), true => Ok (t, h)
  | _, _ => strided_build_eq (fo_get h src a) (fo_get_shape src a)
                             (get_unspecified src) (fo_get_unspec src a) h
  end.

(** COO.fromobject(FlatCOO): storage.py:663-673. *)
Definition coo_of_flatcoo_eq (h : heap) (shape : list Z) (findices data : buffer)
    : res (storage * heap) :=
  l <- flatcoo_iad h shape findices ;;
  '(indices, h1) <- strided_of_seq_eq (int_rows (columns (length shape) (map fst l))) h ;;
  '(d, h2) <- buf_copy_eq h1 data None ;;
  s <- mk_coo shape indices d ;;
  Ok (s, h2).

(** COO.fromobject: storage.py:658-698. *)
Definition coo_fromobject_eq (h : heap) (src : source) (a : fo_args) : res (storage * heap) :=
  match src, is_default a with
  | SrcSto (SCOO sh ind d), true => Ok (SCOO sh ind d, h)
  | SrcSto (SFlatCOO sh f d), true => coo_of_flatcoo_eq h sh f d
  | _, _ => coo_build_eq (fo_get h src a) (fo_get_shape src a)
                         (get_unspecified src) (fo_get_unspec src a) h
  end.

(** FlatCOO.fromobject(COO): storage.py:745-751. *)
Definition flatcoo_of_coo_eq (h : heap) (shape : list Z) (indices : strided) (data : buffer)
    : res (storage * heap) :=
  l <- coo_iad h indices ;;
  fs <- mapM (fun p => get_position (fst p) shape (make_strides shape)) l ;;
  '(f, h1) <- new_buffer h (map VInt fs) VNone ;;
  '(d, h2) <- buf_copy_eq h1 data None ;;
  s <- mk_flatcoo shape f d ;;
  Ok (s, h2).

(** FlatCOO.fromobject: storage.py:740-777. *)
Definition flatcoo_fromobject_eq (h : heap) (src : source) (a : fo_args) : res (storage * heap) :=
  match src, is_default a with
  | SrcSto (SFlatCOO sh f d), true => Ok (SFlatCOO sh f d, h)
  | SrcSto (SCOO sh ind d), true => flatcoo_of_coo_eq h sh ind d
  | _, _ => flatcoo_build_eq (fo_get h src a) (fo_get_shape src a)
                             (get_unspecified src) (fo_get_unspec src a) h
  end.

(** CSR.fromobject(COO): storage.py:824-828. *)
Definition csr_of_coo_eq (h : heap) (shape : list Z) (indices : strided) (data : buffer)
    : res (storage * heap) :=
  r0 <- strided_row h indices 0 ;;
  n0 <- pyget shape 0 ;;
  nse <- pyget (sshape r0) 0 ;;
  rows <- mapM (fun i => strided_int h r0 (XItem (IInt i))) (zseq nse) ;;
  crow <- compress_indices rows n0 ;;
  '(cb, h1) <- buffer_of_seq_eq (ints crow) h ;;
  r1 <- strided_row h1 indices 1 ;;
  '(r1c, h2) <- strided_copy_eq h1 r1 None ;;
  '(col, h3) <- buffer_fromobject_eq h2 (SrcSto (SStrided r1c)) fo_default ;;
  '(d, h4) <- buf_copy_eq h3 data None ;;
  s <- mk_csr shape cb col d ;;
  Ok (s, h4).

(** CSR.fromobject: storage.py:822-831. *)
Definition csr_fromobject_eq (h : heap) (src : source) (a : fo_args) : res (storage * heap) :=
  '(c, h1) <- coo_fromobject_eq h src a ;;
  match c with
  | SCOO sh ind d => csr_of_coo_eq h1 sh ind d
  | _ => Raise OutOfModel
  end.

(** fromobject of the classes other than DM.
    storage.py:457-478, 602-611, 658-698, 740-777, 822-831. *)
Definition flat_fromobject_eq (c : cls) (h : heap) (src : source) (a : fo_args)
    : res (storage * heap) :=
  match c with
  | CBuffer => '(b, h1) <- buffer_fromobject_eq h src a ;; Ok (SBuffer b, h1)
  | CStrided => '(t, h1) <- strided_fromobject_eq h src a ;; Ok (SStrided t, h1)
  | CCOO => coo_fromobject_eq h src a
  | CFlatCOO => flatcoo_fromobject_eq h src a
  | CCSR => csr_fromobject_eq h src a
  | CC2SR => Raise AttributeError
  | CDM => Raise OutOfModel
  end.

(** DM.fromobject with storage_class=c: storage.py:959-1043 (it compares no
    elements itself). *)
Definition dm_fromobject_eq (h : heap) (src : source) (a : fo_args)
    (dimensions partitioning : option (list Z)) (c : cls) : res (storage * heap) :=
  match c with
  | CDM =>
      dm_fromobject_gen false
        (fun h src a => dm_fromobject_gen false (flat_fromobject_eq CStrided) h src a None None)
        h src a dimensions partitioning
  | CBuffer => dm_fromobject_gen true (flat_fromobject_eq CBuffer) h src a dimensions partitioning
  | _ => dm_fromobject_gen false (flat_fromobject_eq c) h src a dimensions partitioning
  end.

(** X.fromobject with default dimensions and partitioning.  storage.py:457-1043. *)
Definition fromobject_eq (c : cls) (h : heap) (src : source) (a : fo_args) : res (storage * heap) :=
  match c with
  | CDM => dm_fromobject_eq h src a None None CStrided
  | _ => flat_fromobject_eq c h src a
  end.

(** as_X(unspecified=u): storage.py:427-449. *)
Definition as_storage_eq (c : cls) (h : heap) (s : storage) (u : option pyval)
    : res (storage * heap) :=
  match c with
  | CDM => dm_fromobject_eq h (SrcSto s) (FO (Some (shape_of s)) None u) None None CStrided
  | _ => flat_fromobject_eq c h (SrcSto s) (fo_unspecified u)
  end.

(** copy: storage.py:313-318 (generic), 511-525 (Buffer), 624-635 (Strided). *)
Fixpoint copy_eq (h : heap) (s : storage) (u : option pyval) {struct s} : res (storage * heap) :=
  match s with
  | SBuffer b => '(b', h1) <- buf_copy_eq h b u ;; Ok (SBuffer b', h1)
  | SStrided t => '(t', h1) <- strided_copy_eq h t u ;; Ok (SStrided t', h1)
  | SCOO sh ind d => '(d', h1) <- buf_copy_eq h d u ;; r <- mk_coo sh ind d' ;; Ok (r, h1)
  | SFlatCOO sh f d => '(d', h1) <- buf_copy_eq h d u ;; r <- mk_flatcoo sh f d' ;; Ok (r, h1)
  | SCSR sh crow col d => '(d', h1) <- buf_copy_eq h d u ;; r <- mk_csr sh crow col d' ;; Ok (r, h1)
  | SC2SR sh ch rl rp col d =>
      '(d', h1) <- buf_copy_eq h d u ;;
      _ <- assert_ (zlen sh =? 2) ;;
      _ <- assert_ (bsize rl =? bsize rp) ;;
      n <- pyget sh 0 ;;
      _ <- assert_ (n =? bsize rl) ;;
      Ok (SC2SR sh ch rl rp col d', h1)
  | SDM sh rd _ rs ro d =>
      '(d', h1) <- copy_eq h d u ;;
      r <- mk_dm sh rd rs ro d' ;;
      Ok (r, h1)
  end.

(** Equality of dicts: the same keys, and values equal or identical ([eqv] stands
    for being identical or equal here, as Python compares the values of dicts):
    storage.py:344-348. *)
Definition dict_eq (l m : list (key * pyval)) : bool :=
  forallb (fun p => match dict_get l (fst p), dict_get m (fst p) with
                    | Some v, Some w => eqv v w
                    | _, _ => false
                    end) l
  && forallb (fun p => match dict_get l (fst p) with Some _ => true | None => false end) m.

(** equal on two storages: storage.py:331-348. *)
Definition equal_eq (h : heap) (s t : storage) : res bool :=
  d1 <- elements h s ;;
  d2 <- elements h t ;;
  Ok (dict_eq d1 d2).

(** Buffer.__eq__: storage.py:538-545.  Python compares the items of lists and
    tuples by being identical or equal; [eqv] stands for that here, so the
    unspecified values are compared by it too, which differs for values that are
    not equal to themselves only. *)
Fixpoint vlist_eq (l m : list pyval) : bool :=
  match l, m with
  | [], [] => true
  | x :: l', y :: m' => eqv x y && vlist_eq l' m'
  | _, _ => false
  end.
Definition buf_eq_eq (h : heap) (a b : buffer) : res bool :=
  la <- cell h (baddr a) ;;
  lb <- cell h (baddr b) ;;
  Ok ((bsize a =? bsize b)
      && vlist_eq (pyslice_list la (boff a) (boff a + bsize a))
                  (pyslice_list lb (boff b) (boff b + bsize b))
      && eqv (bunspec a) (bunspec b)).

(** Strided ==: storage.py:294-297 with 621-622. *)
Definition strided_eq_eq (h : heap) (s t : strided) : res bool :=
  if lex_eqb (sshape s) (sshape t) && lex_eqb (sstrides s) (sstrides t)
  then buf_eq_eq h (sdata s) (sdata t) else Ok false.

(** Storage.__eq__: storage.py:294-297. *)
Fixpoint storage_eq_eq (h : heap) (s t : storage) {struct s} : res bool :=
  match s, t with
  | SBuffer a, SBuffer b => buf_eq_eq h a b
  | SStrided a, SStrided b => strided_eq_eq h a b
  | SCOO sh i d, SCOO sh' i' d' =>
      if lex_eqb sh sh' then andM (strided_eq_eq h i i') (buf_eq_eq h d d') else Ok false
  | SFlatCOO sh f d, SFlatCOO sh' f' d' =>
      if lex_eqb sh sh' then andM (buf_eq_eq h f f') (buf_eq_eq h d d') else Ok false
  | SCSR sh c k d, SCSR sh' c' k' d' =>
      if lex_eqb sh sh' then andM (buf_eq_eq h c c') (andM (buf_eq_eq h k k') (buf_eq_eq h d d'))
      else Ok false
  | SC2SR sh n a b c d, SC2SR sh' n' a' b' c' d' =>
      if lex_eqb sh sh' && (n =? n')
      then andM (buf_eq_eq h a a') (andM (buf_eq_eq h b b') (andM (buf_eq_eq h c c') (buf_eq_eq h d d')))
      else Ok false
  | SDM sh rd _ rs ro d, SDM sh' rd' _ rs' ro' d' =>
      if lex_eqb sh sh' && zll_eqb rd rd' && zll_eqb rs rs' && lex_eqb ro ro'
      then storage_eq_eq h d d' else Ok false
  | _, _ => Ok false
  end.

(** equal: storage.py:331-348; other objects are converted first. *)
Definition equal_src_eq (h : heap) (s : storage) (other : source) : res bool :=
  d1 <- elements h s ;;
  '(o, h1) <- (match other with
               | SrcSto t => Ok (t, h)
               | SrcSeq _ =>
                   match s with
                   | SBuffer _ => flat_fromobject_eq CBuffer h other (fo_unspecified (Some (unspecified_of s)))
                   | _ => flat_fromobject_eq CStrided h other (fo_unspecified (Some (unspecified_of s)))
                   end
               end) ;;
  d2 <- elements h1 o ;;
  Ok (dict_eq d1 d2).

End Equality.

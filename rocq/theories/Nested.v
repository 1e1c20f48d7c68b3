(** Model of nested sequences that contain storages: fromobject, assignment and
    equal on lists such as [[a, b]] or [[a[1], a[0]]], where a and b are arrays. *)
From Verif Require Import Py SliceTools Basics Storage.

(** A value without storages, a storage, or a list or tuple of such objects.
    What storage.py:71-94 accepts. *)
Inductive nested := NVal (v : pyval) | NSto (s : storage) | NSeq (l : list nested).

(** get_shape: storage.py:71-80. *)
Fixpoint nested_shape (q : nested) : list Z :=
  match q with
  | NVal v => seq_shape v
  | NSto s => shape_of s
  | NSeq [] => [0]
  | NSeq ((x :: _) as l) => zlen l :: nested_shape x
  end.

(** The loop of get_value, storage.py:91-94: [value = value[i]] for each item of
    the index.  A storage is indexed by an int, which gives an element or a slice;
    slices of sparse arrays allocate, and nothing refers to them afterwards, so the
    final heap is dropped.  A storage, or a list with storages, reached at the end
    would become an element: not represented. *)
Fixpoint nested_walk (h : heap) (q : nested) (index : list Z) : res pyval :=
  match index with
  | [] => match q with NVal v => Ok v | _ => Raise OutOfModel end
  | i :: r =>
      match q with
      | NVal (VSeq l) => x <- pyget l i ;; nested_walk h (NVal x) r
      | NVal _ => Raise TypeError
      | NSeq l => x <- pyget l i ;; nested_walk h x r
      | NSto s =>
          '(it, h1) <- getitem h s (XItem (IInt i)) ;;
          match it with
          | IVal v => nested_walk h1 (NVal v) r
          | ISto s' => nested_walk h1 (NSto s') r
          end
      end
  end.

(** get_value: storage.py:83-94. *)
Definition nested_value (h : heap) (q : nested) (index : list Z) : res pyval :=
  match q with
  | NVal v => seq_value v index
  | NSto s => get_value h (SrcSto s) index
  | NSeq _ => nested_walk h q index
  end.

(** get_value(seq, get_seq_index(index)).  storage.py:462-473, 680-687, 758-764. *)
Definition nested_get (h : heap) (q : nested) (a : fo_args) (index : list Z) : res pyval :=
  match fo_gsi a with
  | None => nested_value h q index
  | Some f => j <- f index ;; nested_value h q j
  end.

(** fromobject of the classes other than DM: storage.py:457-478, 602-611, 658-698,
    740-777, 822-831.  A list is not a Storage: the branches for storages are not
    taken, and get_unspecified (storage.py:115-121) is None. *)
Definition nested_flat (c : cls) (h : heap) (q : nested) (a : fo_args) : res (storage * heap) :=
  match q with
  | NVal v => flat_fromobject c h (SrcSeq v) a
  | NSto s => flat_fromobject c h (SrcSto s) a
  | NSeq _ =>
      let get := nested_get h q a in
      let sh := match fo_shape a with None => nested_shape q | Some s => s end in
      let u := match fo_unspec a with None => VNone | Some u => u end in
      match c with
      | CBuffer => '(b, h1) <- buffer_build get sh VNone u h ;; Ok (SBuffer b, h1)
      | CStrided => '(t, h1) <- strided_build get sh VNone u h ;; Ok (SStrided t, h1)
      | CCOO => coo_build get sh VNone u h
      | CFlatCOO => flatcoo_build get sh VNone u h
      | CCSR =>
          '(s, h1) <- coo_build get sh VNone u h ;;
          match s with
          | SCOO sh' ind d => csr_of_coo h1 sh' ind d
          | _ => Raise OutOfModel
          end
      | CC2SR => Raise AttributeError
      | CDM => Raise OutOfModel
      end
  end.

(** DM.fromobject: storage.py:959-1043.  [dm_fromobject_gen] uses the source only to
    estimate the shape, which is given here, and to pass it on. *)
Definition nested_dm (h : heap) (q : nested) (a : fo_args)
    (dimensions partitioning : option (list Z)) (c : cls) : res (storage * heap) :=
  let sh := match fo_shape a with None => nested_shape q | Some s => s end in
  let a' := FO (Some sh) (fo_gsi a) (fo_unspec a) in
  match c with
  | CDM =>
      dm_fromobject_gen false
        (fun h src a => dm_fromobject_gen false (fun h _ a => nested_flat CStrided h q a) h src a None None)
        h (SrcSeq VNone) a' dimensions partitioning
  | CBuffer => dm_fromobject_gen true (fun h _ a => nested_flat CBuffer h q a) h (SrcSeq VNone) a' dimensions partitioning
  | _ => dm_fromobject_gen false (fun h _ a => nested_flat c h q a) h (SrcSeq VNone) a' dimensions partitioning
  end.

(** X.fromobject(q, unspecified=u).
    storage.py:457-478, 602-611, 658-698, 740-777, 822-831. *)
Definition nested_fromobject (c : cls) (h : heap) (q : nested) (u : option pyval) : res (storage * heap) :=
  match c with
  | CDM => nested_dm h q (fo_unspecified u) None None CStrided
  | _ => nested_flat c h q (fo_unspecified u)
  end.

(** Storage.__setitem__ with a list of storages as value: storage.py:350-354, as
    [setitem], with get_value of such a list. *)
Definition nested_put {P} (write : heap -> P -> pyval -> outcome) (q : nested)
    (h : heap) (item : list Z * P) : outcome :=
  eval h (nested_value h q (fst item)) (fun x => write h (snd item) x).

Definition nested_setitem (h : heap) (s : storage) (ix : pyindex) (q : nested) : outcome :=
  match q with
  | NVal v => setitem h s ix (SrcSeq v)
  | NSto t => setitem h s ix (SrcSto t)
  | NSeq _ =>
      match s with
      | SBuffer b =>                       (* the list would become an element *)
          match buf_complete_index ix with
          | Raise e => (h, Raise e)
          | Ok (IInt z) => (h, Raise OutOfModel)
          | Ok _ => (h, Raise AssertionError)
          end
      | SStrided t =>
          eval h (nix <- normalize_index ix (sshape t) ;;
                  index_strided nix (sshape t) (sstrides t) 0)
            (fun '(sh, st, off) =>
               strided_slice_gen sh st off (nested_put (buf_write (sdata t)) q) h)
      | SDM shape rdims rshapes rstrides roffset data =>
          eval h (nix <- normalize_index ix shape ;;
                  index_strided nix shape (make_strides shape) 0)
            (fun '(sh, st, off) =>
               slice_gen shape (dm_gen shape rdims rshapes rstrides roffset) sh st off
                 (nested_put (fun h r v => setitem h data (int_tuple r) (SrcSeq v)) q) h)
      | _ =>
          eval h (nix <- normalize_index ix (shape_of s) ;;
                  '(sh, st, off) <- index_strided nix (shape_of s) (strides_of s) 0 ;;
                  d <- data_buffer s ;;
                  Ok (sh, st, off, d))
            (fun '(sh, st, off, d) =>
               slice_gen (shape_of s) (sparse_gen s) sh st off (nested_put (buf_write d) q) h)
      end
  end.

(** equal with a list of storages: storage.py:331-348. *)
Definition nested_equal (h : heap) (s : storage) (q : nested) : res bool :=
  match q with
  | NVal v => equal h s (SrcSeq v)
  | NSto t => equal h s (SrcSto t)
  | NSeq _ =>
      d1 <- elements h s ;;
      '(o, h1) <- nested_flat (match s with SBuffer _ => CBuffer | _ => CStrided end) h q
                    (fo_unspecified (Some (unspecified_of s))) ;;
      d2 <- elements h1 o ;;
      Ok (dict_eqb d1 d2)
  end.

(** Model of gcs/storage.py. *)
From Verif Require Import Py SliceTools.
From Verif Require Export Basics.

(** uncompress_indices: storage.py:48-54. *)
Fixpoint uncompress_loop (i : Z) (compressed : list Z) : list Z :=
  match compressed with
  | a :: ((b :: _) as r) => repeat i (Z.to_nat (b - a)) ++ uncompress_loop (i + 1) r
  | _ => []
  end.
Definition uncompress_indices (compressed : list Z) : list Z := uncompress_loop 0 compressed.

(** Buffer: storage.py:452-595.  [baddr] is the address of the shared list. *)
Record buffer := Buf { bsize : Z; boff : Z; baddr : nat; bunspec : pyval }.
(** Strided: storage.py:598-652. *)
Record strided := Str { sshape : list Z; sstrides : list Z; sdata : buffer }.

(** The storage classes (storage.py:452-1126).  Their attributes are never
    rebound after __init__, so objects are values; only the list cells mutate.
    DM keeps the derived attribute rshapes. *)
Inductive storage :=
| SBuffer (b : buffer)
| SStrided (s : strided)
| SCOO (shape : list Z) (indices : strided) (data : buffer)
| SFlatCOO (shape : list Z) (findices : buffer) (data : buffer)
| SCSR (shape : list Z) (crow col : buffer) (data : buffer)
| SC2SR (shape : list Z) (channels : Z) (row_lengths row_pointers col : buffer) (data : buffer)
| SDM (shape : list Z) (rdims rshapes rstrides : list (list Z)) (roffset : list Z) (data : storage).

(** Objects accepted by fromobject and as assigned values: nested sequences (or
    scalars), or storages.  Sequences containing storages: Nested.v.  storage.py:71-94. *)
Inductive source := SrcSeq (v : pyval) | SrcSto (s : storage).

(** Result of __getitem__: an element or a storage.
    storage.py:362-370, 553-580, 1083-1129. *)
Inductive item := IVal (v : pyval) | ISto (s : storage).

Definition item_val (i : item) : res pyval :=
  match i with IVal v => Ok v | ISto _ => Raise OutOfModel end.

(** self.shape.
    storage.py:480-502, 613-619, 700-708, 779-787, 833-857, 901-918, 1045-1067. *)
Definition shape_of (s : storage) : list Z :=
  match s with
  | SBuffer b => [bsize b]
  | SStrided t => sshape t
  | SCOO sh _ _ => sh
  | SFlatCOO sh _ _ => sh
  | SCSR sh _ _ _ => sh
  | SC2SR sh _ _ _ _ _ => sh
  | SDM sh _ _ _ _ _ => sh
  end.

(** self.unspecified: storage.py:320-322, 507-509. *)
Fixpoint unspecified_of (s : storage) : pyval :=
  match s with
  | SBuffer b => bunspec b
  | SStrided t => bunspec (sdata t)
  | SCOO _ _ d => bunspec d
  | SFlatCOO _ _ d => bunspec d
  | SCSR _ _ _ d => bunspec d
  | SC2SR _ _ _ _ _ d => bunspec d
  | SDM _ _ _ _ _ d => unspecified_of d
  end.

(** self.size: storage.py:499, 619, 707, 786, 857, 918, 1067. *)
Fixpoint size_of (s : storage) : res Z :=
  match s with
  | SBuffer b => Ok (bsize b)
  | SStrided t => Ok (product (sshape t))
  | SCOO _ ind _ => pyget (sshape ind) 1
  | SFlatCOO _ f _ => Ok (bsize f)
  | SCSR _ _ _ d => Ok (bsize d)
  | SC2SR _ _ _ _ _ d => Ok (bsize d)
  | SDM _ _ _ _ _ d => size_of d
  end.

(** self.strides: storage.py:324-329 (computed from shape unless set). *)
Definition strides_of (s : storage) : list Z :=
  match s with
  | SStrided t => sstrides t
  | _ => make_strides (shape_of s)
  end.

(** Storage.__len__: storage.py:291-292. *)
Definition len_of (s : storage) : res Z := pyget (shape_of s) 0.

(** Storage.is_full: storage.py:299-300. *)
Definition is_full (s : storage) : res bool :=
  n <- size_of s ;; Ok (n =? product (shape_of s)).

(** get_shape: storage.py:71-80. *)
Fixpoint seq_shape (v : pyval) : list Z :=
  match v with
  | VSeq [] => [0]
  | VSeq ((x :: _) as l) => zlen l :: seq_shape x
  | _ => []
  end.
Definition get_shape (s : source) : list Z :=
  match s with SrcSeq v => seq_shape v | SrcSto t => shape_of t end.

(** get_unspecified: storage.py:115-121. *)
Definition get_unspecified (s : source) : pyval :=
  match s with SrcSeq _ => VNone | SrcSto t => unspecified_of t end.

(** get_value on nested sequences: storage.py:86-94 (index == () gives the
    object itself, a non-sequence fails the assertion of line 90, a
    non-sequence met further down is not subscriptable). *)
Fixpoint seq_get (v : pyval) (index : list Z) : res pyval :=
  match index with
  | [] => Ok v
  | i :: ix =>
      match v with
      | VSeq l => x <- pyget l i ;; seq_get x ix
      | _ => Raise TypeError
      end
  end.
Definition seq_value (v : pyval) (index : list Z) : res pyval :=
  match index, v with
  | [], _ => Ok v
  | _, VSeq _ => seq_get v index
  | _, _ => Raise AssertionError
  end.

(** is_element_index: storage.py:97-112, on normalized indices (the only use in
    the source: the first two branches cannot occur there). *)
Definition is_int_item (i : nind) : bool := match i with NInt _ => true | _ => false end.
Definition is_element_index (index : list nind) (shape : list Z) : bool :=
  (zlen index =? zlen shape) && forallb is_int_item index.
Fixpoint int_items (index : list nind) : list Z :=
  match index with
  | NInt z :: r => z :: int_items r
  | _ :: r => int_items r
  | [] => []
  end.

(** get_rposition: storage.py:124-132. *)
Fixpoint get_rposition (index strides shape axis_map : list Z) : res Z :=
  match shape with
  | [] => Ok 0
  | _ :: sh =>
      match axis_map, strides with
      | a :: am, s :: st =>
          i <- pyget index a ;;
          rest <- get_rposition index st sh am ;;
          Ok (i * s + rest)
      | _, _ => Raise IndexError
      end
  end.

(** reduce_index: storage.py:135-140. *)
Fixpoint reduce_index (rshapes rdims rstrides : list (list Z)) (roffset index : list Z)
    : res (list Z) :=
  match rshapes with
  | [] => Ok []
  | sh :: shs =>
      match roffset, rstrides, rdims with
      | o :: os, st :: sts, d :: ds =>
          p <- get_rposition index st sh d ;;
          rest <- reduce_index shs ds sts os index ;;
          Ok (o + p :: rest)
      | _, _, _ => Raise IndexError
      end
  end.

(** promote_index for a tuple rindex: storage.py:143-148, 157-165.  As for
    [promotion], a None entry left in the result (which would be passed to the
    sequence as an index) is a TypeError. *)
Fixpoint promote_groups (rshapes rdims rstrides : list (list Z)) (roffset rindex : list Z)
    (index : list (option Z)) : res (list (option Z)) :=
  match rshapes with
  | [] => Ok index
  | sh :: shs =>
      match rindex, roffset, rstrides, rdims with
      | r :: rs, o :: os, st :: sts, d :: ds =>
          index' <- promotion_loop (r - o) d st sh index ;;
          promote_groups shs ds sts os rs index'
      | _, _, _, _ => Raise IndexError
      end
  end.
Definition promote_index (rshapes rdims rstrides : list (list Z)) (roffset rindex : list Z)
    : res (list Z) :=
  let dimensionality := length (concat rdims) in
  l <- promote_groups rshapes rdims rstrides roffset rindex (repeat None dimensionality) ;;
  all_some l.

(** promote_index for an int rindex: storage.py:149-156. *)
Definition promote_index_int (rshapes rdims rstrides : list (list Z)) (roffset : list Z)
    (rindex : Z) : res (list Z) :=
  _ <- assert_ (zlen rdims =? 1) ;;
  match roffset, rstrides, rdims, rshapes with
  | o :: _, st :: _, d :: _, sh :: _ =>
      l <- promotion_loop (rindex - o) d st sh (repeat None (length (concat rdims))) ;;
      all_some l
  | _, _, _, _ => Raise IndexError
  end.

(** get_position: storage.py:176-187. *)
Fixpoint get_position (index shape strides : list Z) : res Z :=
  match shape with
  | [] => Ok 0
  | _ :: sh =>
      match index, strides with
      | i :: ix, s :: st =>
          rest <- get_position ix sh st ;;
          Ok (i * s + rest)
      | _, _ => Raise IndexError
      end
  end.

(** get_index: storage.py:168-173 (the offset argument is not used). *)
Definition get_index (pos : Z) (shape strides : list Z) (offset : Z) : res (option (list Z)) :=
  solve_index pos shape strides.

(** get_slice_index: storage.py:190-197. *)
Definition get_slice_index (index shape strides slice_shape slice_strides : list Z)
    (slice_offset : Z) : res (option (list Z)) :=
  p <- get_position index shape strides ;;
  solve_index (p - slice_offset) slice_shape slice_strides.

(** get_index_slice: storage.py:200-205. *)
Definition get_index_slice (slice_index shape strides slice_shape slice_strides : list Z)
    (slice_offset : Z) : res (option (list Z)) :=
  p <- get_position slice_index slice_shape slice_strides ;;
  get_index (p + slice_offset) shape strides 0.

(** * Buffer *)

(** Buffer.__init__: storage.py:480-502. *)
Definition mk_buffer (h : heap) (size offset : Z) (a : nat) (u : pyval) : res buffer :=
  l <- cell h a ;;
  _ <- assert_ (offset + size <=? zlen l) ;;
  Ok (Buf size offset a u).

(** Buffer(len(values), 0, values, unspecified=u) for a fresh list.
    storage.py:478, 480-502. *)
Definition new_buffer (h : heap) (values : list pyval) (u : pyval) : res (buffer * heap) :=
  let '(a, h') := alloc h values in
  b <- mk_buffer h' (zlen values) 0 a u ;;
  Ok (b, h').

(** Buffer.__getitem__ for an int: storage.py:579-580. *)
Definition buf_get (h : heap) (b : buffer) (i : Z) : res pyval :=
  l <- cell h (baddr b) ;; pyget l (boff b + i).

(** Buffer.__setitem__ for an int: storage.py:582-586. *)
Definition buf_set (h : heap) (b : buffer) (i : Z) (v : pyval) : res heap :=
  l <- cell h (baddr b) ;;
  l' <- pyset l (boff b + i) v ;;
  Ok (set_nth (baddr b) l' h).

(** Buffer.__getitem__ for a slice: storage.py:560-577. *)
Definition buf_slice (h : heap) (b : buffer) (s : pyslice) : res buffer :=
  l <- cell h (baddr b) ;;
  let start := match sl_start s with Some x => boff b + x | None => boff b end in
  let stop := match sl_stop s with Some x => boff b + x | None => boff b + bsize b end in
  if (start <? 0) || (zlen l <=? start) then Raise IndexError
  else if (stop <=? 0) || (zlen l <? stop) then Raise IndexError
  else
    let r := reduced (Sl (Some start) (Some stop) (sl_step s)) (zlen l) in
    if negb (r_step r =? 1) then Raise IndexError
    else mk_buffer h (r_stop r - r_start r) (r_start r) (baddr b) (bunspec b).

(** Buffer._get_complete_index: storage.py:547-551. *)
Definition buf_complete_index (ix : pyindex) : res ind :=
  match ix with
  | XItem i => Ok i
  | XTuple [i] => Ok i
  | XTuple _ => Raise AssertionError
  end.

(** Buffer.__getitem__: storage.py:553-580. *)
Definition buffer_getitem (h : heap) (b : buffer) (ix : pyindex) : res item :=
  i <- buf_complete_index ix ;;
  match i with
  | INone => Ok (ISto (SBuffer b))
  | ISlice s => b' <- buf_slice h b s ;; Ok (ISto (SBuffer b'))
  | IInt z => v <- buf_get h b z ;; Ok (IVal v)
  | IOther => Raise TypeError
  end.

(** list(self): Buffer.__iter__, storage.py:588-590. *)
Definition buf_values (h : heap) (b : buffer) : res (list pyval) :=
  l <- cell h (baddr b) ;;
  mapM (pyget l) (zrange (boff b) (boff b + bsize b)).

(** * Strided *)

(** Strided.__init__: storage.py:613-619. *)
Definition mk_strided (shape strides : list Z) (b : buffer) : res strided :=
  _ <- assert_ (zlen shape =? zlen strides) ;;
  Ok (Str shape strides b).

(** Storage.__getitem__ on Strided: storage.py:362-370 with 648-652.  Slices of
    Strided allocate nothing. *)
Definition strided_getitem (h : heap) (s : strided) (ix : pyindex) : res item :=
  nix <- normalize_index ix (sshape s) ;;
  if is_element_index nix (sshape s) then
    p <- get_position (int_items nix) (sshape s) (sstrides s) ;;
    v <- buf_get h (sdata s) p ;;
    Ok (IVal v)
  else
    '(sh, st, off) <- index_strided nix (sshape s) (sstrides s) 0 ;;
    b <- buf_slice h (sdata s) (Sl (Some off) None None) ;;
    t <- mk_strided sh st b ;;
    Ok (ISto (SStrided t)).

Definition int_tuple (l : list Z) : pyindex := XTuple (map IInt l).

(** An integer element of a Strided array of indices, e.g. [indices[j, pos]]
    used in arithmetic.  storage.py:208-264. *)
Definition as_int (v : pyval) : res Z :=
  match v with VInt z => Ok z | _ => Raise TypeError end.
Definition strided_int (h : heap) (s : strided) (ix : pyindex) : res Z :=
  i <- strided_getitem h s ix ;;
  v <- item_val i ;;
  as_int v.
Definition buf_int (h : heap) (b : buffer) (i : Z) : res Z :=
  v <- buf_get h b i ;; as_int v.

(** * Lookups *)

(** The while loops of get_coo_position, get_flatcoo_position and
    get_csr_position (storage.py:216-230, 240-250, 261-271); [d pos] is the
    difference deciding the direction, 0 when found. *)
Fixpoint bsearch (fuel : nat) (left right : Z) (d : Z -> res Z) : res (option Z) :=
  match fuel with
  | O => Raise OutOfFuel
  | S f =>
      if right <? left then Ok None
      else
        let pos := (left + right) / 2 in
        c <- d pos ;;
        if c =? 0 then Ok (Some pos)
        else if c <? 0 then bsearch f (pos + 1) right d
        else bsearch f left (pos - 1) d
  end.
Definition search_fuel (left right : Z) : nat := S (Z.to_nat (right - left + 1)).

(** The for loop of get_coo_position, storage.py:218-228: the first nonzero
    difference over the axes, 0 if there is none. *)
Fixpoint coo_diff (h : heap) (indices : strided) (pos : Z) (js : list Z) (index : list Z)
    : res Z :=
  match js with
  | [] => Ok 0
  | j :: r =>
      v <- strided_int h indices (int_tuple [j; pos]) ;;
      i <- pyget index j ;;
      if v - i =? 0 then coo_diff h indices pos r index else Ok (v - i)
  end.

(** get_coo_position: storage.py:208-230. *)
Definition get_coo_position (h : heap) (index shape : list Z) (indices : strided)
    : res (option Z) :=
  n <- pyget (sshape indices) 1 ;;
  bsearch (search_fuel 0 (n - 1)) 0 (n - 1)
          (fun pos => coo_diff h indices pos (zseq (zlen shape)) index).

(** get_flatcoo_position: storage.py:233-250. *)
Definition get_flatcoo_position (h : heap) (findex : Z) (findices : buffer) : res (option Z) :=
  bsearch (search_fuel 0 (bsize findices - 1)) 0 (bsize findices - 1)
          (fun pos => v <- buf_int h findices pos ;; Ok (v - findex)).

(** get_csr_position: storage.py:253-271 (an index of other length than 2 fails
    to unpack: ValueError). *)
Definition get_csr_position (h : heap) (index : list Z) (crow col : buffer) : res (option Z) :=
  match index with
  | [r; c] =>
      left <- buf_int h crow r ;;
      right1 <- buf_int h crow (r + 1) ;;
      let right := right1 - 1 in
      bsearch (search_fuel left right) left right
              (fun pos => v <- buf_int h col pos ;; Ok (v - c))
  | _ => Raise ValueError
  end.

(** get_data_position: storage.py:648, 718, 800, 868, 356 (DM: see below). *)
Definition flat_data_position (h : heap) (s : storage) (index : list Z) : res (option Z) :=
  match s with
  | SStrided t => p <- get_position index (sshape t) (sstrides t) ;; Ok (Some p)
  | SCOO sh ind _ => get_coo_position h index sh ind
  | SFlatCOO sh f _ =>
      p <- get_position index sh (make_strides sh) ;; get_flatcoo_position h p f
  | SCSR _ crow col _ => get_csr_position h index crow col
  | _ => Raise NotImplementedError
  end.

(** self.data for the classes whose data is a Buffer.
    storage.py:613-619, 700-708, 779-787, 833-857. *)
Definition data_buffer (s : storage) : res buffer :=
  match s with
  | SStrided t => Ok (sdata t)
  | SCOO _ _ d => Ok d
  | SFlatCOO _ _ d => Ok d
  | SCSR _ _ _ d => Ok d
  | SC2SR _ _ _ _ _ d => Ok d
  | _ => Raise OutOfModel
  end.

(** The element branch of Storage.__getitem__, storage.py:364-368, for those
    classes. *)
Definition flat_get_elem (h : heap) (s : storage) (index : list Z) : res pyval :=
  p <- flat_data_position h s index ;;
  match p with
  | None => Ok (unspecified_of s)
  | Some pos => d <- data_buffer s ;; buf_get h d pos
  end.

(** self[index] for an integer tuple, the same classes: storage.py:362-368. *)
Definition flat_read (h : heap) (s : storage) (index : list Z) : res pyval :=
  nix <- normalize_index (int_tuple index) (shape_of s) ;;
  if is_element_index nix (shape_of s) then flat_get_elem h s (int_items nix)
  else Raise OutOfModel.

(** * fromobject *)

(** The loop shared by the fromobject methods: values of [get] along the
    row-major enumeration, the source's unspecified value replaced:
    storage.py:472-477 (Buffer), 685-695 (COO), 764-774 (FlatCOO). *)
Definition conv_value (su u v : pyval) : pyval := if veqb v su then u else v.

Fixpoint collect (get : list Z -> res pyval) (su u : pyval) (idxs : list (list Z))
    : res (list (list Z * pyval)) :=
  match idxs with
  | [] => Ok []
  | i :: r =>
      v <- get i ;;
      rest <- collect get su u r ;;
      Ok ((i, conv_value su u v) :: rest)
  end.

(** The [continue] of storage.py:691-692, 770-771. *)
Definition specified (u : pyval) (l : list (list Z * pyval)) : list (list Z * pyval) :=
  filter (fun p => negb (veqb (snd p) u)) l.

(** [[index[i] for index in l] for i in range(n)]: the lists filled in
    storage.py:693-694, 726-727. *)
Definition columns (n : nat) (l : list (list Z)) : list (list Z) :=
  map (fun i => map (fun ix => nth i ix 0) l) (seq 0 n).
Definition ints (l : list Z) : pyval := VSeq (map VInt l).
Definition int_rows (l : list (list Z)) : pyval := VSeq (map ints l).

(** Buffer.fromobject after the shortcut: storage.py:462-478. *)
Definition buffer_build (get : list Z -> res pyval) (shape : list Z) (su u : pyval) (h : heap)
    : res (buffer * heap) :=
  vs <- collect get su u (cart shape) ;;
  new_buffer h (map snd vs) u.

(** Strided.fromobject after the shortcut: storage.py:607-611. *)
Definition strided_build (get : list Z -> res pyval) (shape : list Z) (su u : pyval) (h : heap)
    : res (strided * heap) :=
  '(b, h1) <- buffer_build get shape su u h ;;
  t <- mk_strided shape (make_strides shape) b ;;
  Ok (t, h1).

(** Buffer.fromobject and Strided.fromobject on sequences, default arguments.
    storage.py:457-478, 602-611. *)
Definition buffer_of_seq (v : pyval) (h : heap) : res (buffer * heap) :=
  buffer_build (seq_value v) (seq_shape v) VNone VNone h.
Definition strided_of_seq (v : pyval) (h : heap) : res (strided * heap) :=
  strided_build (seq_value v) (seq_shape v) VNone VNone h.

(** COO.__init__: storage.py:700-708. *)
Definition mk_coo (shape : list Z) (indices : strided) (data : buffer) : res storage :=
  n <- pyget (sshape indices) 1 ;;
  _ <- assert_ (n =? bsize data) ;;
  Ok (SCOO shape indices data).

(** COO.fromobject, general branch: storage.py:675-698. *)
Definition coo_build (get : list Z -> res pyval) (shape : list Z) (su u : pyval) (h : heap)
    : res (storage * heap) :=
  vs <- collect get su u (cart shape) ;;
  let vs := specified u vs in
  '(data, h1) <- new_buffer h (map snd vs) u ;;
  '(indices, h2) <- strided_of_seq (int_rows (columns (length shape) (map fst vs))) h1 ;;
  s <- mk_coo shape indices data ;;
  Ok (s, h2).

(** FlatCOO.__init__: storage.py:779-787. *)
Definition mk_flatcoo (shape : list Z) (findices data : buffer) : res storage :=
  _ <- assert_ (bsize findices =? bsize data) ;;
  Ok (SFlatCOO shape findices data).

(** FlatCOO.fromobject, general branch: storage.py:753-777. *)
Definition flatcoo_build (get : list Z -> res pyval) (shape : list Z) (su u : pyval) (h : heap)
    : res (storage * heap) :=
  vs <- collect get su u (cart shape) ;;
  let vs := specified u vs in
  fs <- mapM (fun p => get_position (fst p) shape (make_strides shape)) vs ;;
  '(data, h1) <- new_buffer h (map snd vs) u ;;
  '(findices, h2) <- new_buffer h1 (map VInt fs) VNone ;;
  s <- mk_flatcoo shape findices data ;;
  Ok (s, h2).

(** Buffer.copy: storage.py:511-525. *)
Definition buf_copy (h : heap) (b : buffer) (u : option pyval) : res (buffer * heap) :=
  let u' := match u with None => bunspec b | Some x => x end in
  l <- cell h (baddr b) ;;
  if veqb u' (bunspec b) then
    new_buffer h (pyslice_list l (boff b) (boff b + bsize b)) u'
  else
    vs <- mapM (pyget l) (zrange (boff b) (boff b + bsize b)) ;;
    new_buffer h (map (conv_value (bunspec b) u') vs) u'.

(** Strided.indices_and_data_position: storage.py:637-640. *)
Definition strided_iad (t : strided) : res (list (list Z * Z)) :=
  mapM (fun ix => p <- get_position ix (sshape t) (sstrides t) ;; Ok (ix, p))
       (cart (sshape t)).

(** Strided.slice_indices_and_data_position: storage.py:642-646. *)
Definition strided_slice_iad (shape strides : list Z) (offset : Z) : res (list (list Z * Z)) :=
  mapM (fun ix => p <- get_position ix shape strides ;; Ok (ix, offset + p)) (cart shape).

(** elements of a Strided: storage.py:405-409. *)
Definition strided_elements (h : heap) (t : strided) : res (list (list Z * pyval)) :=
  l <- strided_iad t ;;
  mapM (fun p => v <- buf_get h (sdata t) (snd p) ;; Ok (fst p, v)) l.

(** [result[index] = value] for an integer tuple on a Strided:
    storage.py:350-354 with 642-646. *)
Definition strided_set_elem (h : heap) (t : strided) (index : list Z) (v : pyval) : res heap :=
  nix <- normalize_index (int_tuple index) (sshape t) ;;
  '(sh, st, off) <- index_strided nix (sshape t) (sstrides t) 0 ;;
  l <- strided_slice_iad sh st off ;;
  (fix go (l : list (list Z * Z)) (h : heap) : res heap :=
     match l with
     | [] => Ok h
     | (vi, p) :: r =>
         x <- seq_value v vi ;;
         h' <- buf_set h (sdata t) p x ;;
         go r h'
     end) l h.

(** Strided.copy: storage.py:624-635. *)
Definition strided_copy (h : heap) (t : strided) (u : option pyval) : res (strided * heap) :=
  let su := bunspec (sdata t) in
  let u' := match u with None => su | Some x => x end in
  let size := product (sshape t) in
  let '(a, h1) := alloc h (repeat u' (Z.to_nat size)) in
  data <- mk_buffer h1 size 0 a u' ;;
  result <- mk_strided (sshape t) (make_strides (sshape t)) data ;;
  els <- strided_elements h t ;;
  h2 <- (fix go (l : list (list Z * pyval)) (h : heap) : res heap :=
           match l with
           | [] => Ok h
           | (ix, v) :: r =>
               h' <- strided_set_elem h result ix (conv_value su u' v) ;;
               go r h'
           end) els h1 ;;
  Ok (result, h2).

(** COO.indices_and_data_position: storage.py:713-716. *)
Definition coo_iad (h : heap) (indices : strided) : res (list (list Z * Z)) :=
  n <- pyget (sshape indices) 1 ;;
  rows <- pyget (sshape indices) 0 ;;
  mapM (fun pos =>
          ix <- mapM (fun j => strided_int h indices (int_tuple [j; pos])) (zseq rows) ;;
          Ok (ix, pos)) (zseq n).

(** FlatCOO.indices_and_data_position: storage.py:792-798.  An unsolvable
    findex would give index None, on which get_position fails. *)
Definition flatcoo_iad (h : heap) (shape : list Z) (findices : buffer)
    : res (list (list Z * Z)) :=
  sd <- init_diophantine (make_strides shape) (Some shape) ;;
  mapM (fun pos =>
          f <- buf_int h findices pos ;;
          i <- solve_index_data f shape sd ;;
          match i with
          | Some ix => Ok (ix, pos)
          | None => Raise TypeError
          end) (zseq (bsize findices)).

(** CSR.indices_and_data_position: storage.py:862-866. *)
Fixpoint csr_iad_rows (h : heap) (crow col : buffer) (rows : list Z) : res (list (list Z * Z)) :=
  match rows with
  | [] => Ok []
  | r :: rs =>
      a <- buf_int h crow r ;;
      b <- buf_int h crow (r + 1) ;;
      l <- mapM (fun pos => c <- buf_int h col pos ;; Ok ([r; c], pos)) (zrange a b) ;;
      rest <- csr_iad_rows h crow col rs ;;
      Ok (l ++ rest)
  end.
Definition csr_iad (h : heap) (shape : list Z) (crow col : buffer) : res (list (list Z * Z)) :=
  n <- pyget shape 0 ;; csr_iad_rows h crow col (zseq n).

(** indices_and_data_position of the sparse classes.
    storage.py:713-716, 792-798, 862-866. *)
Definition sparse_iad (h : heap) (s : storage) : res (list (list Z * Z)) :=
  match s with
  | SCOO _ ind _ => coo_iad h ind
  | SFlatCOO sh f _ => flatcoo_iad h sh f
  | SCSR sh crow col _ => csr_iad h sh crow col
  | _ => Raise NotImplementedError
  end.

(** Storage.slice_indices_and_data_position with sort=False (the only use):
    storage.py:393-403.  [shape0] and [strides0] belong to the array; positions
    are of any type [P]. *)
Fixpoint slice_iad_loop {P} (shape0 strides0 shape : list Z) (sd : soldata) (offset : Z)
    (l : list (list Z * P)) : res (list (list Z * P)) :=
  match l with
  | [] => Ok []
  | (ix, p) :: r =>
      sp <- get_position ix shape0 strides0 ;;
      o <- solve_index_data (sp - offset) shape sd ;;
      rest <- slice_iad_loop shape0 strides0 shape sd offset r ;;
      match o with
      | Some six => Ok ((six, p) :: rest)
      | None => Ok rest
      end
  end.
Definition slice_iad {P} (shape0 : list Z) (iad : res (list (list Z * P)))
    (shape strides : list Z) (offset : Z) : res (list (list Z * P)) :=
  sd <- init_diophantine strides (Some shape) ;;
  l <- iad ;;
  slice_iad_loop shape0 (make_strides shape0) shape sd offset l.

(** The values read in the get_slice loops: storage.py:728, 812, 883. *)
Definition slice_values (h : heap) (data : buffer) (l : list (list Z * Z)) : res (list pyval) :=
  mapM (fun p => buf_get h data (snd p)) l.

(** COO.get_slice: storage.py:721-734.  [indices[0]] fails for an empty shape. *)
Definition coo_get_slice (h : heap) (s : storage) (data : buffer)
    (shape strides : list Z) (offset : Z) : res (storage * heap) :=
  l <- slice_iad (shape_of s) (sparse_iad h s) shape strides offset ;;
  let l := sorted_pairs l in
  vs <- slice_values h data l ;;
  let cols := columns (length shape) (map fst l) in
  c0 <- pyget cols 0 ;;
  let ishape := [zlen shape; zlen c0] in
  let '(a, h1) := alloc h (map VInt (concat cols)) in
  ib <- mk_buffer h1 (product ishape) 0 a VNone ;;
  indices <- mk_strided ishape (make_strides ishape) ib ;;
  '(d, h2) <- new_buffer h1 vs (bunspec data) ;;
  r <- mk_coo shape indices d ;;
  Ok (r, h2).

(** FlatCOO.get_slice: storage.py:804-815. *)
Definition flatcoo_get_slice (h : heap) (s : storage) (data : buffer)
    (shape strides : list Z) (offset : Z) : res (storage * heap) :=
  l <- slice_iad (shape_of s) (sparse_iad h s) shape strides offset ;;
  let l := sorted_pairs l in
  fs <- mapM (fun p => get_position (fst p) shape (make_strides shape)) l ;;
  vs <- slice_values h data l ;;
  '(d, h1) <- new_buffer h vs (bunspec data) ;;
  '(f, h2) <- new_buffer h1 (map VInt fs) VNone ;;
  r <- mk_flatcoo shape f d ;;
  Ok (r, h2).

(** CSR.__init__: storage.py:833-857. *)
Definition mk_csr (shape : list Z) (crow col data : buffer) : res storage :=
  _ <- assert_ (zlen shape =? 2) ;;
  n <- pyget shape 0 ;;
  _ <- assert_ (bsize crow =? n + 1) ;;
  _ <- assert_ (bsize col =? bsize data) ;;
  Ok (SCSR shape crow col data).

(** CSR.get_slice: storage.py:871-887.  The one-dimensional case converts the
    whole array to COO first (as_COO, general branch of COO.fromobject). *)
Definition csr_get_slice (h : heap) (s : storage) (data : buffer)
    (shape strides : list Z) (offset : Z) : res (storage * heap) :=
  if zlen shape =? 1 then
    '(c, h1) <- coo_build (flat_read h s) (shape_of s)
                          (unspecified_of s) (unspecified_of s) h ;;
    d <- data_buffer c ;;
    coo_get_slice h1 c d shape strides offset
  else
    _ <- assert_ (zlen shape =? 2) ;;
    l <- slice_iad (shape_of s) (sparse_iad h s) shape strides offset ;;
    let l := sorted_pairs l in
    vs <- slice_values h data l ;;
    '(d, h1) <- new_buffer h vs (bunspec data) ;;
    n <- pyget shape 0 ;;
    crow <- compress_indices (map (fun p => nth 0 (fst p) 0) l) n ;;
    '(cb, h2) <- buffer_of_seq (ints crow) h1 ;;
    '(col, h3) <- buffer_of_seq (ints (map (fun p => nth 1 (fst p) 0) l)) h2 ;;
    r <- mk_csr shape cb col d ;;
    Ok (r, h3).

(** * DM *)

(** make_reduction: storage.py:925-950 (the assertion compares two equal
    expressions). *)
Definition make_reduction (shape : list Z) (rdims : list (list Z))
    : res (list Z * list (list Z) * list (list Z)) :=
  rshapes <- mapM (mapM (pyget shape)) rdims ;;
  Ok (map product rshapes, rshapes, map make_strides rshapes).

Definition zmem (x : Z) (l : list Z) : bool := existsb (Z.eqb x) l.

(** DM.__init__: storage.py:1045-1067; set.union() of no sets is a TypeError. *)
Definition mk_dm (shape : list Z) (rdims rstrides : list (list Z)) (roffset : list Z)
    (data : storage) : res storage :=
  match rdims with
  | [] => Raise TypeError
  | _ =>
      let u := concat rdims in
      let axes := zseq (zlen shape) in
      _ <- assert_ (forallb (fun x => zmem x axes) u && forallb (fun x => zmem x u) axes) ;;
      '(_, rshapes, _) <- make_reduction shape rdims ;;
      Ok (SDM shape rdims rshapes rstrides roffset data)
  end.

(** axis_map of DM.__getitem__, storage.py:1092-1099: the new number of each
    kept axis (the entries of removed axes are None and never read). *)
Fixpoint axis_map (index : list nind) (next : Z) : list (option Z) :=
  match index with
  | [] => []
  | NInt _ :: r => None :: axis_map r next
  | _ :: r => Some next :: axis_map r (next + 1)
  end.

(** [tuple(axis_map[i] for i in rdims if i not in axis_to_be_removed)].
    storage.py:1117. *)
Fixpoint kept_axes (amap : list (option Z)) (dims : list Z) : res (list Z) :=
  match dims with
  | [] => Ok []
  | d :: ds =>
      a <- pyget amap d ;;
      rest <- kept_axes amap ds ;;
      match a with
      | None => Ok rest
      | Some x => Ok (x :: rest)
      end
  end.

(** The loop over the groups in DM.__getitem__: storage.py:1101-1119.  Returns
    roffset, rstrides, dindex, rdimensions. *)
Fixpoint dm_slice_groups (index : list nind) (amap : list (option Z))
    (rdims rshapes rstrides : list (list Z)) (roffset : list Z)
    : res (list Z * list (list Z) * list ind * list (list Z)) :=
  match rdims with
  | [] => Ok ([], [], [], [])
  | ds :: rds =>
      match rshapes, rstrides with
      | sh :: shs, st :: sts =>
          kslice <- mapM (pyget index) ds ;;
          '(kshape, kstrides, koffset) <- index_strided kslice sh st 0 ;;
          o <- (match kshape, roffset with        (* self.roffset[k], only if kshape *)
                | [], _ => Ok 0
                | _, o :: _ => Ok o
                | _, [] => Raise IndexError
                end) ;;
          t <- kept_axes amap ds ;;
          '(ro, rs, di, rd) <- dm_slice_groups index amap rds shs sts (tl roffset) ;;
          let rd' := match t with [] => rd | _ => t :: rd end in
          match kshape with
          | [] => Ok (ro, rs, IInt koffset :: di, rd')
          | _ => Ok (o + koffset :: ro, kstrides :: rs, INone :: di, rd')
          end
      | _, _ => Raise IndexError
      end
  end.

(** __getitem__ of every class: storage.py:362-370 (generic), 553-580 (Buffer),
    1083-1126 (DM).  Slices of sparse arrays allocate, hence the new heap. *)
Fixpoint getitem (h : heap) (s : storage) (ix : pyindex) {struct s} : res (item * heap) :=
  match s with
  | SBuffer b => r <- buffer_getitem h b ix ;; Ok (r, h)
  | SStrided t => r <- strided_getitem h t ix ;; Ok (r, h)
  | SDM shape rdims rshapes rstrides roffset data =>
      nix <- normalize_index ix shape ;;
      if is_element_index nix shape then
        r <- reduce_index rshapes rdims rstrides roffset (int_items nix) ;;
        getitem h data (int_tuple r)
      else
        nix <- normalize_index (XTuple (map nind_to_ind nix)) shape ;;
        gshape <- shape_strided nix shape ;;
        '(ro, rs, di, rd) <- dm_slice_groups nix (axis_map nix 0) rdims rshapes rstrides roffset ;;
        '(it, h1) <- match di with
                     | [] => Ok (ISto data, h)
                     | _ => getitem h data (XTuple di)
                     end ;;
        match it with
        | IVal _ => Raise AssertionError        (* isinstance(data, Storage) *)
        | ISto d => r <- mk_dm gshape rd rs ro d ;; Ok (ISto r, h1)
        end
  | _ =>
      nix <- normalize_index ix (shape_of s) ;;
      if is_element_index nix (shape_of s) then
        v <- flat_get_elem h s (int_items nix) ;; Ok (IVal v, h)
      else
        '(sh, st, off) <- index_strided nix (shape_of s) (strides_of s) 0 ;;
        d <- data_buffer s ;;
        '(r, h1) <- (match s with
                     | SCOO _ _ _ => coo_get_slice h s d sh st off
                     | SFlatCOO _ _ _ => flatcoo_get_slice h s d sh st off
                     | SCSR _ _ _ _ => csr_get_slice h s d sh st off
                     | _ => Raise NotImplementedError
                     end) ;;
        Ok (ISto r, h1)
  end.

(** Reading one element with an integer tuple.  storage.py:362-370, 553-580, 1083-1089. *)
Definition get_elem (h : heap) (s : storage) (index : list Z) : res pyval :=
  '(it, _) <- getitem h s (int_tuple index) ;; item_val it.

(** get_value: storage.py:83-94.  get_value(storage, ()) is the storage itself,
    which the model cannot hold as an element. *)
Definition get_value (h : heap) (src : source) (index : list Z) : res pyval :=
  match src with
  | SrcSeq v => seq_value v index
  | SrcSto s => match index with [] => Raise OutOfModel | _ => get_elem h s index end
  end.

(** * fromobject of every class *)

(** Optional arguments; None is the Python default.  storage.py:458, 603, 659, 741, 823. *)
Record fo_args := FO {
  fo_shape : option (list Z);
  fo_gsi : option (list Z -> res (list Z));
  fo_unspec : option pyval }.
Definition fo_default : fo_args := FO None None None.
Definition fo_unspecified (u : option pyval) : fo_args := FO None None u.
Definition is_default (a : fo_args) : bool :=
  match a with FO None None None => true | _ => false end.

(** get_value(seq, get_seq_index(index)).  storage.py:462-473, 680-687, 758-764. *)
Definition fo_get (h : heap) (src : source) (a : fo_args) (index : list Z) : res pyval :=
  match fo_gsi a with
  | None => get_value h src index
  | Some f => j <- f index ;; get_value h src j
  end.
Definition fo_get_shape (src : source) (a : fo_args) : list Z :=
  match fo_shape a with None => get_shape src | Some s => s end.
Definition fo_get_unspec (src : source) (a : fo_args) : pyval :=
  match fo_unspec a with None => get_unspecified src | Some u => u end.

(** Buffer.fromobject: storage.py:457-478. *)
Definition buffer_fromobject (h : heap) (src : source) (a : fo_args) : res (buffer * heap) :=
  match src, is_default a with
  | SrcSto (SBuffer b), true => Ok (b, h)
  | _, _ => buffer_build (fo_get h src a) (fo_get_shape src a)
                         (get_unspecified src) (fo_get_unspec src a) h
  end.

(** Strided.fromobject: storage.py:602-611. *)
Definition strided_fromobject (h : heap) (src : source) (a : fo_args) : res (strided * heap) :=
  match src, is_default a with
  | SrcSto (SStrided t), true => Ok (t, h)
  | _, _ => strided_build (fo_get h src a) (fo_get_shape src a)
                          (get_unspecified src) (fo_get_unspec src a) h
  end.

(** COO.fromobject(FlatCOO): storage.py:663-673.  An unsolvable findex would
    fail at [index[i]] with TypeError. *)
Definition coo_of_flatcoo (h : heap) (shape : list Z) (findices data : buffer)
    : res (storage * heap) :=
  l <- flatcoo_iad h shape findices ;;
  '(indices, h1) <- strided_of_seq (int_rows (columns (length shape) (map fst l))) h ;;
  '(d, h2) <- buf_copy h1 data None ;;
  s <- mk_coo shape indices d ;;
  Ok (s, h2).

(** COO.fromobject: storage.py:658-698. *)
Definition coo_fromobject (h : heap) (src : source) (a : fo_args) : res (storage * heap) :=
  match src, is_default a with
  | SrcSto (SCOO sh ind d), true => Ok (SCOO sh ind d, h)
  | SrcSto (SFlatCOO sh f d), true => coo_of_flatcoo h sh f d
  | _, _ => coo_build (fo_get h src a) (fo_get_shape src a)
                      (get_unspecified src) (fo_get_unspec src a) h
  end.

(** FlatCOO.fromobject(COO): storage.py:745-751. *)
Definition flatcoo_of_coo (h : heap) (shape : list Z) (indices : strided) (data : buffer)
    : res (storage * heap) :=
  l <- coo_iad h indices ;;
  fs <- mapM (fun p => get_position (fst p) shape (make_strides shape)) l ;;
  '(f, h1) <- new_buffer h (map VInt fs) VNone ;;
  '(d, h2) <- buf_copy h1 data None ;;
  s <- mk_flatcoo shape f d ;;
  Ok (s, h2).

(** FlatCOO.fromobject: storage.py:740-777. *)
Definition flatcoo_fromobject (h : heap) (src : source) (a : fo_args) : res (storage * heap) :=
  match src, is_default a with
  | SrcSto (SFlatCOO sh f d), true => Ok (SFlatCOO sh f d, h)
  | SrcSto (SCOO sh ind d), true => flatcoo_of_coo h sh ind d
  | _, _ => flatcoo_build (fo_get h src a) (fo_get_shape src a)
                          (get_unspecified src) (fo_get_unspec src a) h
  end.

(** A row view [indices[j]] of a Strided.  storage.py:826-827. *)
Definition strided_row (h : heap) (t : strided) (j : Z) : res strided :=
  it <- strided_getitem h t (XItem (IInt j)) ;;
  match it with
  | ISto (SStrided r) => Ok r
  | _ => Raise OutOfModel
  end.

(** CSR.fromobject(COO): storage.py:824-828. *)
Definition csr_of_coo (h : heap) (shape : list Z) (indices : strided) (data : buffer)
    : res (storage * heap) :=
  r0 <- strided_row h indices 0 ;;
  n0 <- pyget shape 0 ;;
  nse <- pyget (sshape r0) 0 ;;
  rows <- mapM (fun i => strided_int h r0 (XItem (IInt i))) (zseq nse) ;;
  crow <- compress_indices rows n0 ;;
  '(cb, h1) <- buffer_of_seq (ints crow) h ;;
  r1 <- strided_row h1 indices 1 ;;
  '(r1c, h2) <- strided_copy h1 r1 None ;;
  '(col, h3) <- buffer_fromobject h2 (SrcSto (SStrided r1c)) fo_default ;;
  '(d, h4) <- buf_copy h3 data None ;;
  s <- mk_csr shape cb col d ;;
  Ok (s, h4).

(** CSR.fromobject: storage.py:822-831. *)
Definition csr_fromobject (h : heap) (src : source) (a : fo_args) : res (storage * heap) :=
  '(c, h1) <- coo_fromobject h src a ;;
  match c with
  | SCOO sh ind d => csr_of_coo h1 sh ind d
  | _ => Raise OutOfModel
  end.

(** The storage classes as values (argument storage_class).
    storage.py:960-961, 986-987. *)
Inductive cls := CBuffer | CStrided | CCOO | CFlatCOO | CCSR | CC2SR | CDM.

(** fromobject of the classes other than DM.  C2SR defines no fromobject:
    AttributeError.  storage.py:457-478, 602-611, 658-698, 740-777, 822-831, 890. *)
Definition flat_fromobject (c : cls) (h : heap) (src : source) (a : fo_args)
    : res (storage * heap) :=
  match c with
  | CBuffer => '(b, h1) <- buffer_fromobject h src a ;; Ok (SBuffer b, h1)
  | CStrided => '(t, h1) <- strided_fromobject h src a ;; Ok (SStrided t, h1)
  | CCOO => coo_fromobject h src a
  | CFlatCOO => flatcoo_fromobject h src a
  | CCSR => csr_fromobject h src a
  | CC2SR => Raise AttributeError
  | CDM => Raise OutOfModel
  end.

Fixpoint is_sorted (l : list Z) : bool :=
  match l with
  | a :: ((b :: _) as r) => (a <=? b) && is_sorted r
  | _ => true
  end.

(** The loop of storage.py:1017-1021 with its assertion. *)
Fixpoint distinct_groups (seen : list (list Z)) (l : list (list Z)) : bool :=
  match l with
  | [] => true
  | g :: r => negb (existsb (lex_eqb g) seen) && distinct_groups (seen ++ [g]) r
  end.

(** DM.fromobject: storage.py:959-1043.  [fo] is storage_class.fromobject.  An
    int partitioning p is passed as [Some [p]] (line 999-1000). *)
Definition dm_fromobject_gen (is_buffer : bool)
    (fo : heap -> source -> fo_args -> res (storage * heap))
    (h : heap) (src : source) (a : fo_args)
    (dimensions partitioning : option (list Z)) : res (storage * heap) :=
  let shape := fo_get_shape src a in
  let n := zlen shape in
  let dims := match dimensions with None => zseq n | Some d => d end in
  let part := match partitioning with
              | None => if is_buffer || (n =? 1) then [] else [n - 1]
              | Some p => p
              end in
  _ <- assert_ (match part with
                | [] => true
                | _ => is_sorted part && forallb (fun p => 0 <? p) part
                       && forallb (fun p => p <? n) part
                end) ;;
  let m := zlen part + 1 in
  _ <- assert_ (m <=? n) ;;
  let rdims := cut dims ([0] ++ part ++ [n]) in
  _ <- assert_ (distinct_groups [] rdims) ;;
  let roffset := map (fun _ => 0) rdims in
  '(rshape, rshapes, rstrides) <- make_reduction shape rdims ;;
  let gsi := fun rindex =>
               j <- promote_index rshapes rdims rstrides roffset rindex ;;
               match fo_gsi a with None => Ok j | Some f => f j end in
  '(st, h1) <- fo h src (FO (Some rshape) (Some gsi) (fo_unspec a)) ;;
  _ <- assert_ (zlen (shape_of st) =? m) ;;
  s <- mk_dm shape rdims rstrides roffset st ;;
  Ok (s, h1).

(** DM.fromobject with storage_class=c (None is CStrided).  For CDM the inner
    call uses DM's own defaults, i.e. Strided storage.  storage.py:959-1043. *)
Definition dm_fromobject (h : heap) (src : source) (a : fo_args)
    (dimensions partitioning : option (list Z)) (c : cls) : res (storage * heap) :=
  match c with
  | CDM =>
      dm_fromobject_gen false
        (fun h src a => dm_fromobject_gen false (flat_fromobject CStrided) h src a None None)
        h src a dimensions partitioning
  | CBuffer => dm_fromobject_gen true (flat_fromobject CBuffer) h src a dimensions partitioning
  | _ => dm_fromobject_gen false (flat_fromobject c) h src a dimensions partitioning
  end.

(** X.fromobject with default dimensions and partitioning.  storage.py:457-1043. *)
Definition fromobject (c : cls) (h : heap) (src : source) (a : fo_args) : res (storage * heap) :=
  match c with
  | CDM => dm_fromobject h src a None None CStrided
  | _ => flat_fromobject c h src a
  end.

(** as_X(unspecified=u): storage.py:427-449.  as_C2SR calls the missing
    C2SR.fromobject; as_DM passes shape=self.shape. *)
Definition as_storage (c : cls) (h : heap) (s : storage) (u : option pyval)
    : res (storage * heap) :=
  match c with
  | CDM => dm_fromobject h (SrcSto s) (FO (Some (shape_of s)) None u) None None CStrided
  | _ => flat_fromobject c h (SrcSto s) (fo_unspecified u)
  end.
Definition as_DM (h : heap) (s : storage) (dimensions partitioning : option (list Z)) (c : cls)
    (u : option pyval) : res (storage * heap) :=
  dm_fromobject h (SrcSto s) (FO (Some (shape_of s)) None u) dimensions partitioning c.

(** * Assignment *)

(** The outcome of a mutating statement: the heap reached and either normal
    completion or the exception raised (earlier writes persist).
    Used for storage.py:350-354, 582-586. *)
Definition outcome := (heap * res unit)%type.

(** [for x in l: body].  Used for storage.py:350-354. *)
Fixpoint for_each {X} (l : list X) (body : heap -> X -> outcome) (h : heap) : outcome :=
  match l with
  | [] => (h, Ok tt)
  | x :: r =>
      match body h x with
      | (h', Ok _) => for_each r body h'
      | (h', Raise e) => (h', Raise e)
      end
  end.

(** Evaluation of an expression in a statement: an exception ends it.
    Used for storage.py:350-354. *)
Definition eval {A} (h : heap) (m : res A) (k : A -> outcome) : outcome :=
  match m with Ok x => k x | Raise e => (h, Raise e) end.

(** A generator is represented by the loop over it: [g body h] runs [body] on the
    items it yields, each computed from the heap reached at that moment, so the
    enumeration and the writes of the loop body interleave as in Python.
    Used for storage.py:372-405, 592-596, 637-646, 713-716, 792-798, 862-866, 1072-1078. *)
Definition generator (X : Type) := (heap -> X -> outcome) -> heap -> outcome.

Definition buf_write (b : buffer) (h : heap) (p : Z) (v : pyval) : outcome :=
  match buf_set h b p v with
  | Ok h' => (h', Ok tt)
  | Raise e => (h, Raise e)
  end.

(** Buffer.__setitem__: storage.py:582-586; only int indices are supported. *)
Definition buffer_setitem (h : heap) (b : buffer) (ix : pyindex) (value : source) : outcome :=
  match buf_complete_index ix with
  | Raise e => (h, Raise e)
  | Ok (IInt z) =>
      match value with
      | SrcSeq v => buf_write b h z v
      | SrcSto _ => (h, Raise OutOfModel)
      end
  | Ok _ => (h, Raise AssertionError)
  end.

(** DM.indices_and_data_position as a list: storage.py:1072-1078. *)
Definition dm_iad (shape : list Z) (rdims rshapes rstrides : list (list Z)) (roffset : list Z)
    : res (list (list Z * list Z)) :=
  mapM (fun ix => r <- reduce_index rshapes rdims rstrides roffset ix ;; Ok (ix, r))
       (cart shape).

(** Strided.slice_indices_and_data_position: storage.py:642-646. *)
Definition strided_slice_gen (shape strides : list Z) (offset : Z) : generator (list Z * Z) :=
  fun body =>
    for_each (cart shape) (fun h ix =>
      eval h (get_position ix shape strides) (fun p => body h (ix, offset + p))).

(** COO.indices_and_data_position: storage.py:713-716. *)
Definition coo_gen (indices : strided) : generator (list Z * Z) :=
  fun body h =>
    eval h (pyget (sshape indices) 1) (fun n =>
      for_each (zseq n) (fun h pos =>
        eval h (rows <- pyget (sshape indices) 0 ;;
                mapM (fun j => strided_int h indices (int_tuple [j; pos])) (zseq rows))
          (fun ix => body h (ix, pos))) h).

(** FlatCOO.indices_and_data_position: storage.py:792-798. *)
Definition flatcoo_gen (shape : list Z) (findices : buffer) : generator (list Z * Z) :=
  fun body h =>
    eval h (init_diophantine (make_strides shape) (Some shape)) (fun sd =>
      for_each (zseq (bsize findices)) (fun h pos =>
        eval h (f <- buf_int h findices pos ;;
                i <- solve_index_data f shape sd ;;
                match i with Some ix => Ok ix | None => Raise TypeError end)
          (fun ix => body h (ix, pos))) h).

(** CSR.indices_and_data_position: storage.py:862-866. *)
Definition csr_gen (shape : list Z) (crow col : buffer) : generator (list Z * Z) :=
  fun body h =>
    eval h (pyget shape 0) (fun n =>
      for_each (zseq n) (fun h r =>
        eval h (a <- buf_int h crow r ;; b <- buf_int h crow (r + 1) ;; Ok (zrange a b)) (fun l =>
          for_each l (fun h pos =>
            eval h (buf_int h col pos) (fun c => body h ([r; c], pos))) h)) h).

(** indices_and_data_position of the sparse classes (C2SR inherits the method
    that raises).  storage.py:713-716, 792-798, 862-866. *)
Definition sparse_gen (s : storage) : generator (list Z * Z) :=
  match s with
  | SCOO _ ind _ => coo_gen ind
  | SFlatCOO sh f _ => flatcoo_gen sh f
  | SCSR sh crow col _ => csr_gen sh crow col
  | _ => fun _ h => (h, Raise NotImplementedError)
  end.

(** DM.indices_and_data_position: storage.py:1072-1078. *)
Definition dm_gen (shape : list Z) (rdims rshapes rstrides : list (list Z)) (roffset : list Z)
    : generator (list Z * list Z) :=
  fun body =>
    for_each (cart shape) (fun h ix =>
      eval h (reduce_index rshapes rdims rstrides roffset ix) (fun r => body h (ix, r))).

(** Storage.slice_indices_and_data_position, sort=False: storage.py:393-403. *)
Definition slice_gen {P} (shape0 : list Z) (g : generator (list Z * P))
    (shape strides : list Z) (offset : Z) : generator (list Z * P) :=
  fun body h =>
    eval h (init_diophantine strides (Some shape)) (fun sd =>
      g (fun h item =>
           eval h (sp <- get_position (fst item) shape0 (make_strides shape0) ;;
                   solve_index_data (sp - offset) shape sd)
             (fun o => match o with
                       | Some six => body h (six, snd item)
                       | None => (h, Ok tt)
                       end)) h).

(** The loop body [self.data[data_pos] = get_value(value, value_index)]:
    storage.py:354. *)
Definition put {P} (write : heap -> P -> pyval -> outcome) (value : source)
    (h : heap) (item : list Z * P) : outcome :=
  eval h (get_value h value (fst item)) (fun x => write h (snd item) x).

(** Storage.__setitem__: storage.py:350-354. *)
Fixpoint setitem (h : heap) (s : storage) (ix : pyindex) (value : source) {struct s} : outcome :=
  match s with
  | SBuffer b => buffer_setitem h b ix value
  | SStrided t =>
      eval h (nix <- normalize_index ix (sshape t) ;;
              index_strided nix (sshape t) (sstrides t) 0)
        (fun '(sh, st, off) =>
           strided_slice_gen sh st off (put (buf_write (sdata t)) value) h)
  | SDM shape rdims rshapes rstrides roffset data =>
      eval h (nix <- normalize_index ix shape ;;
              index_strided nix shape (make_strides shape) 0)
        (fun '(sh, st, off) =>
           slice_gen shape (dm_gen shape rdims rshapes rstrides roffset) sh st off
             (put (fun h r v => setitem h data (int_tuple r) (SrcSeq v)) value) h)
  | _ =>
      eval h (nix <- normalize_index ix (shape_of s) ;;
              '(sh, st, off) <- index_strided nix (shape_of s) (strides_of s) 0 ;;
              d <- data_buffer s ;;
              Ok (sh, st, off, d))
        (fun '(sh, st, off, d) =>
           slice_gen (shape_of s) (sparse_gen s) sh st off (put (buf_write d) value) h)
  end.

(** * copy, ==, elements, equal *)

(** copy: storage.py:313-318 (generic: same constructor arguments, data copied),
    511-525 (Buffer), 624-635 (Strided). *)
Fixpoint copy (h : heap) (s : storage) (u : option pyval) {struct s} : res (storage * heap) :=
  match s with
  | SBuffer b => '(b', h1) <- buf_copy h b u ;; Ok (SBuffer b', h1)
  | SStrided t => '(t', h1) <- strided_copy h t u ;; Ok (SStrided t', h1)
  | SCOO sh ind d => '(d', h1) <- buf_copy h d u ;; r <- mk_coo sh ind d' ;; Ok (r, h1)
  | SFlatCOO sh f d => '(d', h1) <- buf_copy h d u ;; r <- mk_flatcoo sh f d' ;; Ok (r, h1)
  | SCSR sh crow col d => '(d', h1) <- buf_copy h d u ;; r <- mk_csr sh crow col d' ;; Ok (r, h1)
  | SC2SR sh ch rl rp col d =>
      '(d', h1) <- buf_copy h d u ;;
      _ <- assert_ (zlen sh =? 2) ;;
      _ <- assert_ (bsize rl =? bsize rp) ;;
      n <- pyget sh 0 ;;
      _ <- assert_ (n =? bsize rl) ;;
      Ok (SC2SR sh ch rl rp col d', h1)
  | SDM sh rd _ rs ro d =>
      '(d', h1) <- copy h d u ;;
      r <- mk_dm sh rd rs ro d' ;;
      Ok (r, h1)
  end.

(** Buffer.__eq__: storage.py:538-545. *)
Definition vlist_eqb (l m : list pyval) : bool := veqb (VSeq l) (VSeq m).
Definition buf_eq (h : heap) (a b : buffer) : res bool :=
  la <- cell h (baddr a) ;;
  lb <- cell h (baddr b) ;;
  Ok ((bsize a =? bsize b)
      && vlist_eqb (pyslice_list la (boff a) (boff a + bsize a))
                   (pyslice_list lb (boff b) (boff b + bsize b))
      && veqb (bunspec a) (bunspec b)).

(** Strided ==: storage.py:294-297 with 621-622. *)
Definition strided_eq (h : heap) (s t : strided) : res bool :=
  if lex_eqb (sshape s) (sshape t) && lex_eqb (sstrides s) (sstrides t)
  then buf_eq h (sdata s) (sdata t) else Ok false.

Definition zll_eqb (a b : list (list Z)) : bool :=
  (fix go (a b : list (list Z)) : bool :=
     match a, b with
     | [], [] => true
     | x :: a', y :: b' => lex_eqb x y && go a' b'
     | _, _ => false
     end) a b.

Definition andM (a : res bool) (b : res bool) : res bool :=
  x <- a ;; if x : bool then b else Ok false.

(** Storage.__eq__ on storages: storage.py:294-297: equality of the constructor
    arguments; different classes compare unequal. *)
Fixpoint storage_eq (h : heap) (s t : storage) {struct s} : res bool :=
  match s, t with
  | SBuffer a, SBuffer b => buf_eq h a b
  | SStrided a, SStrided b => strided_eq h a b
  | SCOO sh i d, SCOO sh' i' d' =>
      if lex_eqb sh sh' then andM (strided_eq h i i') (buf_eq h d d') else Ok false
  | SFlatCOO sh f d, SFlatCOO sh' f' d' =>
      if lex_eqb sh sh' then andM (buf_eq h f f') (buf_eq h d d') else Ok false
  | SCSR sh c k d, SCSR sh' c' k' d' =>
      if lex_eqb sh sh' then andM (buf_eq h c c') (andM (buf_eq h k k') (buf_eq h d d'))
      else Ok false
  | SC2SR sh n a b c d, SC2SR sh' n' a' b' c' d' =>
      if lex_eqb sh sh' && (n =? n')
      then andM (buf_eq h a a') (andM (buf_eq h b b') (andM (buf_eq h c c') (buf_eq h d d')))
      else Ok false
  | SDM sh rd _ rs ro d, SDM sh' rd' _ rs' ro' d' =>
      if lex_eqb sh sh' && zll_eqb rd rd' && zll_eqb rs rs' && lex_eqb ro ro'
      then storage_eq h d d' else Ok false
  | _, _ => Ok false
  end.

(** Keys of the dicts built by equal: ints for Buffer, tuples otherwise.
    storage.py:331-348. *)
Inductive key := KInt (z : Z) | KTup (l : list Z).
Definition key_eqb (a b : key) : bool :=
  match a, b with
  | KInt x, KInt y => x =? y
  | KTup x, KTup y => lex_eqb x y
  | _, _ => false
  end.

(** elements: storage.py:405-409 with the indices_and_data_position methods. *)
Definition elements (h : heap) (s : storage) : res (list (key * pyval)) :=
  match s with
  | SBuffer b =>
      l <- cell h (baddr b) ;;
      mapM (fun p => v <- pyget l p ;; Ok (KInt (p - boff b), v))
           (zrange (boff b) (boff b + bsize b))
  | SStrided t =>
      els <- strided_elements h t ;; Ok (map (fun p => (KTup (fst p), snd p)) els)
  | SDM shape rdims rshapes rstrides roffset data =>
      l <- dm_iad shape rdims rshapes rstrides roffset ;;
      mapM (fun p => v <- get_elem h data (snd p) ;; Ok (KTup (fst p), v)) l
  | _ =>
      d <- data_buffer s ;;
      l <- sparse_iad h s ;;
      mapM (fun p => v <- buf_get h d (snd p) ;; Ok (KTup (fst p), v)) l
  end.

(** Python dict from a list of pairs: a later binding replaces an earlier one.
    Used at storage.py:333-348. *)
Definition dict_get (l : list (key * pyval)) (k : key) : option pyval :=
  fold_left (fun acc p => if key_eqb (fst p) k then Some (snd p) else acc) l None.
(** Equality of the two dicts: each key of one is bound to an equal value in the
    other, in both directions.  storage.py:331-348. *)
Definition dict_sub (l m : list (key * pyval)) : bool :=
  forallb (fun p => match dict_get l (fst p), dict_get m (fst p) with
                    | Some v, Some w => veqb v w
                    | _, _ => false
                    end) l.
Definition dict_eqb (l m : list (key * pyval)) : bool := dict_sub l m && dict_sub m l.

(** equal: storage.py:331-348.  Other objects are converted first. *)
Definition equal (h : heap) (s : storage) (other : source) : res bool :=
  d1 <- elements h s ;;
  '(o, h1) <- (match other with
               | SrcSto t => Ok (t, h)
               | SrcSeq _ =>
                   match s with
                   | SBuffer _ => flat_fromobject CBuffer h other (fo_unspecified (Some (unspecified_of s)))
                   | _ => flat_fromobject CStrided h other (fo_unspecified (Some (unspecified_of s)))
                   end
               end) ;;
  d2 <- elements h1 o ;;
  Ok (dict_eqb d1 d2).

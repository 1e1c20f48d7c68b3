(** as_DM in a program with several threads: the elements are read one after the
    other, one list access at a time (as in Threads.v), in the order of the
    indices of the reduced array; the lists of the new array are its own. *)
From Verif Require Import Py SliceTools Basics Storage Threads Copies.
From Coq Require Import List.
Import ListNotations.

(** The reads of storage_class.fromobject(seq, shape=.., get_seq_index=..):
    storage.py:462-474, 607-611, 675-687, 753-766, 822-831. *)
Definition gather_t (s : storage) (shape : list Z) (gsi : list Z -> res (list Z)) : prog (list pyval) :=
  mapM_t (fun r => j <~ Ret (gsi r) ;; get_value_t (SrcSto s) j) (cart shape).

(** DM.fromobject up to the call of storage_class.fromobject (here [read]), with
    get_seq_index left out: storage.py:982-1040. *)
Definition merge_reads (is_buffer : bool) (read : list Z -> (list Z -> res (list Z)) -> prog (list pyval))
    (shape : list Z) (dimensions partitioning : option (list Z)) : prog (list pyval) :=
  let n := zlen shape in
  let dims := match dimensions with None => zseq n | Some d => d end in
  let part := match partitioning with
              | None => if is_buffer || (n =? 1) then [] else [n - 1]
              | Some p => p
              end in
  _ <~ Ret (assert_ (match part with
                     | [] => true
                     | _ => is_sorted part && forallb (fun p => 0 <? p) part
                            && forallb (fun p => p <? n) part
                     end)) ;;
  _ <~ Ret (assert_ (zlen part + 1 <=? n)) ;;
  let rdims := cut dims ([0] ++ part ++ [n]) in
  _ <~ Ret (assert_ (distinct_groups [] rdims)) ;;
  let roffset := map (fun _ => 0) rdims in
  m <~ Ret (make_reduction shape rdims) ;;
  let '(rshape, rshapes, rstrides) := m in
  read rshape (promote_index rshapes rdims rstrides roffset).

(** as_DM up to the building of the new lists: storage.py:445-449 with 982-1040.
    storage_class=DM is left out. *)
Definition merge_t (c : cls) (s : storage) (dimensions partitioning : option (list Z)) : prog (list pyval) :=
  merge_reads (match c with CBuffer => true | _ => false end) (gather_t s) (shape_of s) dimensions partitioning.

(** The new array, from the values read: storage.py:959-1043 with the loops over
    the values read instead of over [s]. *)
Definition merge_of (c : cls) (s : storage) (dimensions partitioning : option (list Z)) (u : option pyval)
    (xs : list pyval) (h : heap) : res (storage * heap) :=
  dm_fromobject_gen (match c with CBuffer => true | _ => false end)
    (fun h src a => build c (value_read (cart (fo_get_shape src a)) xs) (fo_get_shape src a)
                          (get_unspecified src) (fo_get_unspec src a) h)
    h (SrcSto s) (FO (Some (shape_of s)) None u) dimensions partitioning.

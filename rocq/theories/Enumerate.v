(** Model of the rest of the public interface of the storage classes: sorted
    enumeration of slices, iteration, item containment. *)
From Verif Require Import Py SliceTools Basics Storage.

(** A data position: an int for the classes whose data is a Buffer, a tuple for
    DM.  storage.py:592-596, 637-640, 713-716, 792-798, 862-866, 1072-1078. *)
Inductive dpos := DInt (z : Z) | DTup (l : list Z).

(** get_data_position: storage.py:648, 718, 800, 868, 1080; Buffer and C2SR
    inherit the one that raises NotImplementedError, storage.py:356-357. *)
Definition data_position (h : heap) (s : storage) (index : list Z) : res (option dpos) :=
  match s with
  | SDM shape rdims rshapes rstrides roffset data =>
      r <- reduce_index rshapes rdims rstrides roffset index ;; Ok (Some (DTup r))
  | _ => o <- flat_data_position h s index ;; Ok (option_map DInt o)
  end.

(** self.data[data_pos]: storage.py:368, 409. *)
Definition read_data (h : heap) (s : storage) (p : dpos) : res pyval :=
  match s, p with
  | SDM _ _ _ _ _ data, DTup r => get_elem h data r
  | SDM _ _ _ _ _ _, DInt _ => Raise OutOfModel
  | _, DInt z => d <- data_buffer s ;; buf_get h d z
  | _, DTup _ => Raise OutOfModel
  end.

(** Storage.slice_indices_and_data_position with sort=True: storage.py:382-392.
    solve_index returning None makes get_data_position index None: TypeError. *)
Definition sorted_slice_iad (h : heap) (s : storage) (shape strides : list Z) (offset : Z)
    : res (list (list Z * option dpos)) :=
  sd <- init_diophantine (strides_of s) (Some (shape_of s)) ;;
  mapM (fun slice_index =>
          p <- get_position slice_index shape strides ;;
          o <- solve_index_data (p + offset) (shape_of s) sd ;;
          match o with
          | None => Raise TypeError
          | Some index => q <- data_position h s index ;; Ok (slice_index, q)
          end)
       (cart shape).

Definition int_positions (l : list (list Z * Z)) : list (list Z * option dpos) :=
  map (fun e => (fst e, Some (DInt (snd e)))) l.
Definition tup_positions (l : list (list Z * list Z)) : list (list Z * option dpos) :=
  map (fun e => (fst e, Some (DTup (snd e)))) l.

(** slice_indices_and_data_position of the class of [s], as a list:
    storage.py:376-403 and 642-646 (Strided). *)
Definition slice_enumeration (h : heap) (s : storage) (sort : bool)
    (shape strides : list Z) (offset : Z) : res (list (list Z * option dpos)) :=
  match s with
  | SStrided _ => l <- strided_slice_iad shape strides offset ;; Ok (int_positions l)
  | SBuffer _ | SC2SR _ _ _ _ _ _ => Raise OutOfModel
  | SDM shape0 rdims rshapes rstrides roffset _ =>
      if sort then sorted_slice_iad h s shape strides offset
      else l <- slice_iad shape0 (dm_iad shape0 rdims rshapes rstrides roffset) shape strides offset ;;
           Ok (tup_positions l)
  | _ =>
      if sort then sorted_slice_iad h s shape strides offset
      else l <- slice_iad (shape_of s) (sparse_iad h s) shape strides offset ;; Ok (int_positions l)
  end.

(** Storage.__ne__: storage.py:302-303. *)
Definition storage_ne (h : heap) (s t : storage) : res bool :=
  b <- storage_eq h s t ;; Ok (negb b).

(** Iteration.  Buffer.__iter__: storage.py:588-590.  The other classes define
    __getitem__ and __len__ but no __iter__, so [for x in s] asks for s[0], s[1],
    ... until IndexError (Python's sequence iteration protocol).  [iterate n] is
    the first [n] rounds; [None] in place of an item: the iteration ended. *)
Fixpoint iterate (n : nat) (k : Z) (h : heap) (s : storage) : res (list (option item) * heap) :=
  match n with
  | O => Ok ([], h)
  | S n' =>
      match getitem h s (XItem (IInt k)) with
      | Ok (it, h1) => '(l, h2) <- iterate n' (k + 1) h1 s ;; Ok (Some it :: l, h2)
      | Raise IndexError => Ok ([None], h)
      | Raise e => Raise e
      end
  end.

(** Model of gcs_basics.py. *)
From Verif Require Import Py.

(** product: gcs_basics.py:11-12 (and storage.py:57-62). *)
Fixpoint product (l : list Z) : Z :=
  match l with [] => 1 | x :: r => x * product r end.

(** C-contiguous strides; the expression of gcs_basics.py:47, of
    make_strides (storage.py:65-68) and of make_reduction (storage.py:943-944). *)
Fixpoint make_strides (shape : list Z) : list Z :=
  match shape with [] => [] | _ :: sh => product sh :: make_strides sh end.

(** One group of the metadata built in the loop of gcs_basics.py:44-50:
    reduction_dimensions, reduction_shapes, reduction_strides. *)
Record rgroup := RG { rg_dims : list Z; rg_shape : list Z; rg_strides : list Z }.

(** dims[positions[k]:positions[k+1]] for consecutive positions:
    gcs_basics.py:45, storage.py:1018-1021. *)
Fixpoint cut (dims : list Z) (positions : list Z) : list (list Z) :=
  match positions with
  | p :: ((q :: _) as r) => pyslice_list dims p q :: cut dims r
  | _ => []
  end.

(** create_reduction_metadata: gcs_basics.py:15-59.  The dict is represented by
    the list of groups; dimensionality, reduction_dimensionality and
    reduction_shape are functions of the groups and the shape. *)
Definition create_reduction_metadata (shape dims partitioning : list Z) : res (list rgroup) :=
  let n := zlen shape in
  _ <- assert_ (zlen partitioning + 1 <=? n) ;;
  mapM (fun rd =>
          rs <- mapM (pyget shape) rd ;;
          Ok (RG rd rs (make_strides rs)))
       (cut dims ([0] ++ partitioning ++ [n])).

(** metadata['reduction_shape']: gcs_basics.py:51. *)
Definition reduction_shape (md : list rgroup) : list Z := map (fun g => product (rg_shape g)) md.

(** The inner sum of reduction: gcs_basics.py:72; the loop runs over
    range(len(reduction_shape)). *)
Fixpoint reduction_sum (rshape rstrides rdims indices : list Z) : res Z :=
  match rshape with
  | [] => Ok 0
  | _ :: rs =>
      match rstrides, rdims with
      | s :: st, d :: ds =>
          i <- pyget indices d ;;
          rest <- reduction_sum rs st ds indices ;;
          Ok (s * i + rest)
      | _, _ => Raise IndexError
      end
  end.

(** reduction: gcs_basics.py:62-74. *)
Definition reduction (md : list rgroup) (indices : list Z) : res (list Z) :=
  mapM (fun g => reduction_sum (rg_shape g) (rg_strides g) (rg_dims g) indices) md.

(** The inner loop of promotion: gcs_basics.py:88-89. *)
Fixpoint promotion_loop (rindex : Z) (rdims rstrides rshape : list Z)
    (indices : list (option Z)) : res (list (option Z)) :=
  match rdims with
  | [] => Ok indices
  | d :: ds =>
      match rstrides with
      | s :: st =>
          q <- pydiv rindex s ;;
          match rshape with
          | n :: sh =>
              v <- pymod q n ;;
              indices' <- pyset indices d (Some v) ;;
              promotion_loop rindex ds st sh indices'
          | [] => Raise IndexError
          end
      | [] => Raise IndexError
      end
  end.

Fixpoint promotion_groups (md : list rgroup) (rindices : list Z) (indices : list (option Z))
    : res (list (option Z)) :=
  match md with
  | [] => Ok indices
  | g :: r =>
      match rindices with
      | ri :: rs =>
          indices' <- promotion_loop ri (rg_dims g) (rg_strides g) (rg_shape g) indices ;;
          promotion_groups r rs indices'
      | [] =>                 (* reduction_indices[k] is evaluated in the inner loop *)
          match rg_dims g with
          | [] => promotion_groups r [] indices
          | _ => Raise IndexError
          end
      end
  end.

(** Reading a tuple that must not contain None (see promotion below).
    storage.py:143-166. *)
Fixpoint all_some (l : list (option Z)) : res (list Z) :=
  match l with
  | [] => Ok []
  | Some z :: r => rest <- all_some r ;; Ok (z :: rest)
  | None :: _ => Raise TypeError
  end.

(** promotion: gcs_basics.py:77-90; [n] is metadata['dimensionality'].  If some
    entry stays None (dimensions not a permutation) the source returns a tuple
    with None entries; the model raises TypeError, as any integer use of that
    entry would. *)
Definition promotion (n : Z) (md : list rgroup) (rindices : list Z) : res (list Z) :=
  l <- promotion_groups md rindices (repeat None (Z.to_nat n)) ;;
  all_some l.

(** compress_indices: gcs_basics.py:93-114 and, identically, storage.py:24-45.
    The inner loop writes [i] to compressed[k], compressed[k+1], ... [cnt] times. *)
Fixpoint fill (cnt : nat) (compressed : list Z) (k v : Z) : res (list Z * Z) :=
  match cnt with
  | O => Ok (compressed, k)
  | S c =>
      compressed' <- pyset compressed k v ;;
      fill c compressed' (k + 1) v
  end.

Fixpoint compress_loop (indices : list Z) (i : Z) (compressed : list Z) (k last_index : Z)
    : res (list Z * Z) :=
  match indices with
  | [] => Ok (compressed, k)
  | index :: r =>
      '(compressed', k') <- fill (Z.to_nat (index - last_index)) compressed k i ;;
      compress_loop r (i + 1) compressed' k' index
  end.

Definition compress_indices (indices : list Z) (size : Z) : res (list Z) :=
  let nse := zlen indices in
  '(compressed, k) <- compress_loop indices 0 (repeat 0 (Z.to_nat (size + 1))) 1 0 ;;
  '(compressed', _) <- fill (Z.to_nat (size + 1 - k)) compressed k nse ;;
  Ok compressed'.

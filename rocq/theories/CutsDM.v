(** Slices of DM arrays over sparse data in a program with several threads:
    DM.__getitem__ reads nothing but the slice of its data (as in Cuts.v). *)
From Verif Require Import Py SliceTools Basics Storage Threads Copies Cuts.
From Coq Require Import List.
Import ListNotations.

(** What DM.__getitem__ computes before it slices the data, for an index that is not
    an element index: storage.py:1083-1119.  Returns the shape, roffset, rstrides,
    dindex and rdimensions. *)
Definition dm_cut (s : storage) (ix : pyindex) : res (list Z * list Z * list (list Z) * list ind * list (list Z)) :=
  match s with
  | SDM shape rdims rshapes rstrides roffset _ =>
      nix <- normalize_index ix shape ;;
      _ <- assert_ (negb (is_element_index nix shape)) ;;
      nix <- normalize_index (XTuple (map nind_to_ind nix)) shape ;;
      gshape <- shape_strided nix shape ;;
      '(ro, rs, di, rd) <- dm_slice_groups nix (axis_map nix 0) rdims rshapes rstrides roffset ;;
      Ok (gshape, ro, rs, di, rd)
  | _ => Raise AssertionError
  end.

(** The reads: storage.py:1125, with the slice of the data as in Cuts.v (which leaves
    out the slices of CSR data with one axis). *)
Definition dm_slice_t (s : storage) (ix : pyindex) : prog (list (list Z * pyval)) :=
  match s with
  | SDM _ _ _ _ _ data =>
      pbind (Ret (dm_cut s ix)) (fun '(_, _, _, di, _) => slice_t data (XTuple di))
  | _ => Ret (Raise AssertionError)
  end.

(** What is made of them: storage.py:1125-1126. *)
Definition dm_slice_of (s : storage) (ix : pyindex) (E : list (list Z * pyval)) (h : heap) : res (storage * heap) :=
  match s with
  | SDM _ _ _ _ _ data =>
      '(gshape, ro, rs, di, rd) <- dm_cut s ix ;;
      '(d, h1) <- slice_of data (XTuple di) E h ;;
      r <- mk_dm gshape rd rs ro d ;;
      Ok (r, h1)
  | _ => Raise AssertionError
  end.

(** Over CSR data, with an index that fixes all axes of a group: get_slice of CSR
    converts the data to COO (the program of Copies.v) and slices the result, which
    no other thread has: storage.py:1125-1126, 872-873. *)
Definition dm_row_t (s : storage) (ix : pyindex) : prog (list pyval) :=
  match s with
  | SDM _ _ _ _ _ data => pbind (Ret (dm_cut s ix)) (fun _ => copy_t data)
  | _ => Ret (Raise AssertionError)
  end.
Definition dm_row_of (s : storage) (ix : pyindex) (xs : list pyval) (h : heap) : res (storage * heap) :=
  match s with
  | SDM _ _ _ _ _ data =>
      '(gshape, ro, rs, di, rd) <- dm_cut s ix ;;
      '(c, h1) <- copy_of CCOO data (unspecified_of data) xs h ;;
      '(it, h2) <- getitem h1 c (XTuple di) ;;
      match it with
      | IVal _ => Raise AssertionError
      | ISto d => r <- mk_dm gshape rd rs ro d ;; Ok (r, h2)
      end
  | _ => Raise AssertionError
  end.

(** Independent specification: what the properties mean.  Nothing here depends on
    the model of the library (only on the data types and [zseq] of Py.v, the
    list 0, 1, ..., n-1). *)
From Verif Require Import Py.

(** * Python slices

    CPython's slice semantics (PySlice_Unpack, PySlice_AdjustIndices): bounds
    after adding the length to negative values and clamping, then the arithmetic
    progression start, start+step, ... up to but excluding stop. *)
Definition sp_step (s : pyslice) : Z :=
  match sl_step s with None => 1 | Some k => k end.

Definition sp_adjust (k n v : Z) : Z :=
  if v <? 0 then
    if v + n <? 0 then (if k <? 0 then -1 else 0) else v + n
  else if n <=? v then (if k <? 0 then n - 1 else n)
  else v.

Definition sp_start (s : pyslice) (n : Z) : Z :=
  let k := sp_step s in
  match sl_start s with
  | None => if k <? 0 then n - 1 else 0
  | Some v => sp_adjust k n v
  end.

Definition sp_stop (s : pyslice) (n : Z) : Z :=
  let k := sp_step s in
  match sl_stop s with
  | None => if k <? 0 then -1 else n
  | Some v => sp_adjust k n v
  end.

Definition sp_count (a b k : Z) : Z :=
  if k <? 0 then (if b <? a then (a - b - 1) / (- k) + 1 else 0)
  else (if a <? b then (b - a - 1) / k + 1 else 0).

(** The list [list(range(n))[s]]: the positions a slice selects, in order. *)
Definition selected (s : pyslice) (n : Z) : list Z :=
  map (fun i => sp_start s n + i * sp_step s)
      (zseq (sp_count (sp_start s n) (sp_stop s n) (sp_step s))).

(** [x[s]] for a list x. *)
Definition py_slice {A} (d : A) (s : pyslice) (x : list A) : list A :=
  map (fun i => nth (Z.to_nat i) x d) (selected s (zlen x)).

(** * Arrays *)

(** Indices of an array of the given shape. *)
Definition in_box (i shape : list Z) : Prop :=
  Forall2 (fun x n => 0 <= x < n) i shape.

Definition positive (shape : list Z) : Prop := Forall (fun n => 0 < n) shape.
Definition nonneg (shape : list Z) : Prop := Forall (fun n => 0 <= n) shape.

(** C-contiguous strides: the stride of an axis is the product of the sizes of
    the later axes. *)
Fixpoint c_strides (shape : list Z) : list Z :=
  match shape with [] => [] | _ :: sh => fold_right Z.mul 1 sh :: c_strides sh end.

(** Number of elements. *)
Definition n_elements (shape : list Z) : Z := fold_right Z.mul 1 shape.

(** Strict row-major (lexicographic) order on indices of equal rank. *)
Inductive row_major_lt : list Z -> list Z -> Prop :=
| rml_head x y a b : x < y -> length a = length b -> row_major_lt (x :: a) (y :: b)
| rml_tail x a b : row_major_lt a b -> row_major_lt (x :: a) (x :: b).

(** Array indices as the library understands them: integer items drop their
    axis, slices and None (the full range) keep it, missing items mean None.
    Slices must have a nonzero step, as in Python. *)
Definition index_items (ix : pyindex) : list ind :=
  match ix with XItem i => [i] | XTuple l => l end.

Definition ok_item (i : ind) : Prop :=
  match i with
  | IInt _ => True
  | ISlice s => sp_step s <> 0
  | INone => True
  | IOther => False
  end.

(** A bare None selects everything, for every rank; other items need an axis. *)
Definition ok_index (ix : pyindex) (shape : list Z) : Prop :=
  Forall ok_item (index_items ix) /\
  (ix = XItem INone \/ (length (index_items ix) <= length shape)%nat).

(** The shape of the sliced array. *)
Fixpoint items_shape (ix : list ind) (shape : list Z) : list Z :=
  match ix, shape with
  | _, [] => []
  | [], _ => shape
  | IInt _ :: r, _ :: sh => items_shape r sh
  | ISlice s :: r, n :: sh => zlen (selected s n) :: items_shape r sh
  | _ :: r, n :: sh => n :: items_shape r sh
  end.

(** The index of the source array from which element [j] of the sliced array is
    taken. *)
Fixpoint items_source (ix : list ind) (shape j : list Z) : list Z :=
  match ix, shape with
  | _, [] => []
  | [], _ => j
  | IInt z :: r, n :: sh => z mod n :: items_source r sh j
  | ISlice s :: r, n :: sh =>
      match j with
      | [] => []
      | x :: j' => nth (Z.to_nat x) (selected s n) 0 :: items_source r sh j'
      end
  | _ :: r, n :: sh =>
      match j with
      | [] => []
      | x :: j' => x :: items_source r sh j'
      end
  end.

Definition slice_shape (ix : pyindex) (shape : list Z) : list Z :=
  items_shape (index_items ix) shape.
Definition source_index (ix : pyindex) (shape j : list Z) : list Z :=
  items_source (index_items ix) shape j.

(** Index [i] is one of those [ix] selects. *)
Definition hit (ix : pyindex) (shape i : list Z) : Prop :=
  exists j, in_box j (slice_shape ix shape) /\ source_index ix shape j = i.

(** An index is an element index when it gives an integer for every axis. *)
Definition is_int (i : ind) : Prop := match i with IInt _ => True | _ => False end.
Definition element_index (ix : pyindex) (shape : list Z) : Prop :=
  length (index_items ix) = length shape /\ Forall is_int (index_items ix).

(** * Nested lists *)

(** [v] is a rectangular nested list of the given shape whose elements are not
    lists.  An empty list has shape [(0,)], as the nesting below is unknown. *)
Fixpoint regular (shape : list Z) (v : pyval) : Prop :=
  match shape with
  | [] => match v with VSeq _ => False | _ => True end
  | n :: sh =>
      match v with
      | VSeq l => zlen l = n /\ (n = 0 -> sh = []) /\ Forall (regular sh) l
      | _ => False
      end
  end.

(** [v[i0][i1]...] for an index in range. *)
Fixpoint nested_at (v : pyval) (i : list Z) : option pyval :=
  match i with
  | [] => Some v
  | x :: i' =>
      match v with
      | VSeq l => if x <? 0 then None
                  else match nth_error l (Z.to_nat x) with
                       | Some w => nested_at w i'
                       | None => None
                       end
      | _ => None
      end
  end.

(** * Chains of slices: [x[i1][i2]...] *)
Fixpoint chain_shape (ixs : list pyindex) (shape : list Z) : list Z :=
  match ixs with [] => shape | ix :: r => chain_shape r (slice_shape ix shape) end.
Fixpoint chain_source (ixs : list pyindex) (shape j : list Z) : list Z :=
  match ixs with
  | [] => j
  | ix :: r => source_index ix shape (chain_source r (slice_shape ix shape) j)
  end.
(** Every index of the chain is a slice of an array with positive dimensions. *)
Fixpoint chain_ok (ixs : list pyindex) (shape : list Z) : Prop :=
  match ixs with
  | [] => True
  | ix :: r => positive shape /\ ok_index ix shape /\ slice_shape ix shape <> []
               /\ chain_ok r (slice_shape ix shape)
  end.

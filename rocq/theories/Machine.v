(** The abstract array machine of C58: what a program over arrays means, with no
    reference to how the library stores them.  Memory is a number of homes, each
    a function from indices to values; an array is a window on one home. *)
From Verif Require Import Py SliceTools Basics Storage Spec PropRead PropReach.

(** An array: its class, whether its slices are views, its shape and unspecified
    value; the home its elements live in, where in the home each index is, and
    which indices have a place there: the others read as the unspecified value
    and ignore assignments. *)
Record arr := Arr {
  a_cls : cls; a_views : bool; a_shape : list Z; a_unspec : pyval;
  a_home : nat; a_at : list Z -> list Z; a_has : list Z -> bool }.
Record machine := Machine { content : nat -> list Z -> pyval; arrs : list arr }.

Definition aread (m : machine) (a : arr) (i : list Z) : pyval :=
  if a_has a i then content m (a_home a) (a_at a i) else a_unspec a.

Definition sparse_class (c : cls) : bool := match c with CCOO | CFlatCOO | CCSR => true | _ => false end.
Definition view_class (c : cls) : bool := match c with CBuffer | CStrided | CDM => true | _ => false end.

(** The shape of a nested list. *)
Fixpoint list_shape (v : pyval) : list Z :=
  match v with
  | VSeq l => zlen l :: match l with [] => [] | x :: _ => list_shape x end
  | _ => []
  end.
(** Conversion to another unspecified value. *)
Definition renamed (old new v : pyval) : pyval := if veqb v old then new else v.
(** Element [i] of a nested list; None and missing elements are None. *)
Definition list_value (v : pyval) (i : list Z) : pyval :=
  match nested_at v i with Some x => x | None => VNone end.
(** All indices of an array. *)
Fixpoint all_indices (sh : list Z) : list (list Z) :=
  match sh with [] => [[]] | n :: r => flat_map (fun x => map (cons x) (all_indices r)) (zseq n) end.

Definition same_index (i j : list Z) : bool := if list_eq_dec Z.eq_dec i j then true else false.

(** A new array with a home of its own. *)
Definition anew (m : machine) (c : cls) (views : bool) (sh : list Z) (u : pyval)
    (value : list Z -> pyval) (has : list Z -> bool) : machine :=
  let home := length (arrs m) in
  Machine (fun r p => if Nat.eqb r home then value p else content m r p)
          (arrs m ++ [Arr c views sh u home (fun i => i) has]).
(** A new array on the same home as [a]. *)
Definition aview (m : machine) (a : arr) (sh : list Z) (src : list Z -> list Z) : machine :=
  Machine (content m)
          (arrs m ++ [Arr (a_cls a) (a_views a) sh (a_unspec a) (a_home a)
                          (fun j => a_at a (src j)) (fun j => a_has a (src j))]).

(** What a class stores of an array with the given values: the sparse classes
    the values that differ from the unspecified one, the others all. *)
Definition stores (c : cls) (u : pyval) (value : list Z -> pyval) (i : list Z) : bool :=
  if sparse_class c then negb (veqb (value i) u) else true.

Definition same_cls (c c' : cls) : bool :=
  match c, c' with
  | CBuffer, CBuffer | CStrided, CStrided | CCOO, CCOO | CFlatCOO, CFlatCOO => true
  | _, _ => false
  end.
(** Conversions between these classes keep the stored indices. *)
Definition keeps (c c' : cls) (u : option pyval) : bool :=
  match u with
  | None => match c, c' with (CCOO | CFlatCOO), (CCOO | CFlatCOO | CCSR) => true | _, _ => false end
  | Some _ => false
  end.

(** Slices of a class. *)
Definition slice_cls (c : cls) (rank : nat) : cls :=
  match c with CCSR => if Nat.eqb rank 2 then CCSR else CCOO | _ => c end.

(** A row or column of a CSR array is a COO array of the values that differ from
    the unspecified one. *)
Definition forgets (c c' : cls) : bool := match c, c' with CCSR, CCOO => true | _, _ => false end.

Definition avalue (m : machine) (v : operand) (j : list Z) : pyval :=
  match v with
  | OList v => list_value v j
  | OVar k => match nth_error (arrs m) k with Some b => aread m b j | None => VNone end
  end.

Definition awith (m : machine) (k : nat) (f : arr -> machine) : machine :=
  match nth_error (arrs m) k with Some a => f a | None => m end.

(** An element is overwritten; an index with no place ignores it. *)
Definition aput (m : machine) (a : arr) (i : list Z) (v : pyval) : machine :=
  Machine (fun r p => if Nat.eqb r (a_home a) && a_has a i && same_index (a_at a i) p then v else content m r p) (arrs m).
(** [a[ix] = v]: the selected elements are overwritten one by one, row by row;
    each value is read when its turn comes. *)
Definition assigned (m : machine) (a : arr) (ix : pyindex) (v : operand) : machine :=
  fold_left (fun m' j => aput m' a (source_index ix (a_shape a) j) (avalue m' v j))
            (all_indices (slice_shape ix (a_shape a))) m.

Definition astep (m : machine) (o : op) : machine :=
  match o with
  | New c v u =>
      let u' := chosen VNone u in
      let value := fun i => renamed VNone u' (list_value v i) in
      anew m c (view_class c) (list_shape v) u' value (stores c u' value)
  | NewDM v u _ _ c =>
      let u' := chosen VNone u in
      anew m CDM (view_class c) (list_shape v) u' (fun i => renamed VNone u' (list_value v i)) (fun _ => true)
  | As k c u => awith m k (fun a =>
      let u' := chosen (a_unspec a) u in
      let value := fun i => renamed (a_unspec a) u' (aread m a i) in
      if same_cls c (a_cls a) && match u with None => true | _ => false end
      then aview m a (a_shape a) (fun i => i)
      else anew m c (view_class c) (a_shape a) u' value
             (if keeps (a_cls a) c u then a_has a else stores c u' value))
  | AsDM k _ _ c u => awith m k (fun a =>
      let u' := chosen (a_unspec a) u in
      anew m CDM (view_class c) (a_shape a) u' (fun i => renamed (a_unspec a) u' (aread m a i)) (fun _ => true))
  | Slice k ix => awith m k (fun a =>
      let sh := slice_shape ix (a_shape a) in
      let src := source_index ix (a_shape a) in
      let value := fun j => aread m a (src j) in
      let c := slice_cls (a_cls a) (length sh) in
      if a_views a then aview m a sh src
      else anew m c false sh (a_unspec a) value
             (fun j => a_has a (src j) && (if forgets (a_cls a) c then negb (veqb (value j) (a_unspec a)) else true)))
  | Copy k u => awith m k (fun a =>
      let u' := chosen (a_unspec a) u in
      anew m (a_cls a) (a_views a) (a_shape a) u' (fun i => renamed (a_unspec a) u' (aread m a i)) (a_has a))
  | Assign k ix v => awith m k (fun a => assigned m a ix v)
  end.

Definition arun (ops : list op) : machine := fold_left astep ops (Machine (fun _ _ => VNone) []).

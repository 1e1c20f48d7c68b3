(** The abstract array machine of C116: that of Machine.v, with what the library
    does when one element of a sparse or DM array is assigned.  The stored indices
    of such an array are matched with an index that has no dimensions left, so all
    of them match and all are overwritten (gcs/storage.py 350-354, Storage.__setitem__,
    and 375-403, Storage.slice_indices_and_data_position). *)
From Verif Require Import Py SliceTools Basics Storage Spec PropRead PropReach Machine.

(** Element assignment to these classes overwrites every element. *)
Definition floods (c : cls) : bool := match c with CCOO | CFlatCOO | CCSR | CDM => true | _ => false end.

(** Every element of [a] that has a place becomes [v], wherever else it is seen. *)
Definition flooded (m : machine) (a : arr) (v : pyval) : machine :=
  Machine (fun r p => if Nat.eqb r (a_home a)
                         && existsb (fun i => a_has a i && same_index (a_at a i) p) (all_indices (a_shape a))
                      then v else content m r p) (arrs m).

Definition fstep (m : machine) (o : op) : machine :=
  match o with
  | Assign k ix v => awith m k (fun a =>
      match slice_shape ix (a_shape a) with
      | [] => if floods (a_cls a) then flooded m a (avalue m v []) else assigned m a ix v
      | _ :: _ => assigned m a ix v
      end)
  | _ => astep m o
  end.

Definition frun (ops : list op) : machine := fold_left fstep ops (Machine (fun _ _ => VNone) []).

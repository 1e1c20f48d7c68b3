(** The abstract array machine of C117: that of C116 (Flood.v), with the order in
    which a slice of a sparse or DM array is assigned. *)
From Verif Require Import Py SliceTools Basics Storage Spec PropRead PropReach Machine Flood.

(** The indices of a slice in the order in which the array's own indices come:
    Storage.slice_indices_and_data_position (gcs/storage.py 375-403) goes through
    the elements of the array and looks up, for each, the index it has in the
    slice. *)
Definition turns (ix : pyindex) (sh : list Z) : list (list Z) :=
  flat_map (fun i => match find (fun j => same_index (source_index ix sh j) i) (all_indices (slice_shape ix sh)) with
                     | Some j => [j]
                     | None => []
                     end) (all_indices sh).

(** [a[ix] = v] on a sparse or DM array: the selected elements are overwritten in
    that order; each value is read when its turn comes (storage.py 350-354,
    __setitem__). *)
Definition in_turn (m : machine) (a : arr) (ix : pyindex) (v : operand) : machine :=
  fold_left (fun m' j => aput m' a (source_index ix (a_shape a) j) (avalue m' v j)) (turns ix (a_shape a)) m.

Definition tstep (m : machine) (o : op) : machine :=
  match o with
  | Assign k ix v => awith m k (fun a =>
      if floods (a_cls a)
      then match slice_shape ix (a_shape a) with
           | [] => flooded m a (avalue m v [])
           | _ :: _ => in_turn m a ix v
           end
      else assigned m a ix v)
  | _ => astep m o
  end.

Definition trun (ops : list op) : machine := fold_left tstep ops (Machine (fun _ _ => VNone) []).

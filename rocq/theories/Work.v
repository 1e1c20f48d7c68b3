(** The amount of work in looking up indices: the functions of slice_tools.py and
    storage.py again, with a count of what they do.  [PropWork] shows that they
    compute the same as the functions in SliceTools.v and Storage.v. *)
From Verif Require Import Py SliceTools Basics Storage.
From Coq Require Import List.
Import ListNotations.

(** The calls of extgcd on the stack when extgcd(a, b) gets to its end:
    slice_tools.py:154-160. *)
Inductive gcd_depth : Z -> Z -> nat -> Prop :=
| gcd_end b : gcd_depth 0 b 1
| gcd_call a b n : a <> 0 -> gcd_depth (b mod a) a n -> gcd_depth a b (S n).

(** The same for _init_diophantine, slice_tools.py:163-183: a call of extgcd, then
    a call of itself. *)
Inductive dio_depth : list Z -> nat -> Prop :=
| dio_end a : (length a <= 1)%nat -> dio_depth a 1
| dio_call a0 a1 r d x y n m : extgcd a0 a1 = (d, x, y) -> gcd_depth a0 a1 n -> dio_depth (d :: r) m ->
    dio_depth (a0 :: a1 :: r) (S (Nat.max n m)).

(** The dt loop of solve_index with the number of index candidates it forms,
    slice_tools.py:350-363. *)
Fixpoint try_counted (k : Z) (sd : soldata) (shape : list Z) (dts : list (list Z))
    : nat * res (option (list Z)) :=
  match dts with
  | [] => (O, Ok None)
  | dt :: r =>
      match accum k (sd_zs sd) (sd_D sd) (sd_b sd) (sd_s sd) dt
              (axpy k (sd_z0 sd) (map (fun _ => 0) (sd_z0 sd))) with
      | Raise e => (1%nat, Raise e)
      | Ok index =>
          match in_shape index shape with
          | Raise e => (1%nat, Raise e)
          | Ok true => (1%nat, Ok (Some index))
          | Ok false => let '(n, o) := try_counted k sd shape r in (S n, o)
          end
      end
  end.
(** solve_index with precomputed data, slice_tools.py:341-363. *)
Definition solve_data_counted (pos : Z) (shape : list Z) (sd : soldata) : nat * res (option (list Z)) :=
  if match shape, sd_s sd with [], _ => true | _, Some _ => true | _, None => false end then
    match pymod pos (sd_d sd) with
    | Raise e => (O, Raise e)
    | Ok m =>
        if negb (m =? 0) then (O, Ok None)
        else match pydiv pos (sd_d sd) with
             | Raise e => (O, Raise e)
             | Ok k => try_counted k sd shape (cart (map (fun _ => 2) (sd_zs sd)))
             end
    end
  else (O, Raise AssertionError).
(** solve_index, slice_tools.py:308-363. *)
Definition solve_counted (pos : Z) (shape strides : list Z) : nat * res (option (list Z)) :=
  match init_diophantine strides (Some shape) with
  | Raise e => (O, Raise e)
  | Ok sd => solve_data_counted pos shape sd
  end.

(** Storage.slice_indices_and_data_position, storage.py:393-403: one search for
    every stored element of the array. *)
Fixpoint slice_counted_loop {P} (shape0 strides0 shape : list Z) (sd : soldata) (offset : Z)
    (l : list (list Z * P)) : nat * res (list (list Z * P)) :=
  match l with
  | [] => (O, Ok [])
  | (ix, p) :: r =>
      match get_position ix shape0 strides0 with
      | Raise e => (O, Raise e)
      | Ok sp =>
          let '(n, o) := solve_data_counted (sp - offset) shape sd in
          match o with
          | Raise e => (n, Raise e)
          | Ok six =>
              let '(m, rest) := slice_counted_loop shape0 strides0 shape sd offset r in
              ((n + m)%nat, match rest with
                            | Raise e => Raise e
                            | Ok rest => Ok (match six with Some six => (six, p) :: rest | None => rest end)
                            end)
          end
      end
  end.
Definition slice_counted {P} (shape0 : list Z) (l : list (list Z * P))
    (shape strides : list Z) (offset : Z) : nat * res (list (list Z * P)) :=
  match init_diophantine strides (Some shape) with
  | Raise e => (O, Raise e)
  | Ok sd => slice_counted_loop shape0 (make_strides shape0) shape sd offset l
  end.

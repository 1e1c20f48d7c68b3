(** gcs/tests/test_slice.py and test_gcs_basics.py on the model, see Conformance.v. *)
From Verif Require Import Py SliceTools Basics Storage Enumerate Spec Conformance.
From Coq Require Import List.
Import ListNotations.

(** * test_slice.py *)
Definition zlist_eqb (l m : list Z) : bool := all2 Z.eqb l m.
Definition is_ok {A} (eqb : A -> A -> bool) (x : res A) (a : A) : bool := match x with Ok b => eqb a b | Raise _ => false end.
(** test_slice.py:5-37, one slice *)
Definition test_reduced_one (d : Z) (s : pyslice) : bool :=
  let r := selected s d in
  let s2 := reduced s d in
  let r2 := selected (to_slice s2) d in
  let r3 := match nitems (to_slice s2) d with
            | Ok n => map (fun i => r_start s2 mod d + i * r_step s2) (zseq n)
            | Raise _ => [-1]
            end in
  let r4 := if 0 <? r_step s2 then
              filter (fun i => (r_start s2 <=? i) && (i <? r_stop s2) && ((i - r_start s2) mod r_step s2 =? 0)) (zseq d)
            else
              map (fun i => d - i - 1)
                (filter (fun i => (- r_start s2 - 1 <=? i) && (i <? - r_stop s2 - 1) && ((i + r_start s2 + 1) mod r_step s2 =? 0)) (zseq d)) in
  zlist_eqb r r2 && is_ok Z.eqb (nitems s d) (zlen r) && zlist_eqb r r3 && zlist_eqb r r4.
Definition bounds (d : Z) : list (option Z) := None :: map Some (zrange (- d - 10) (d + 10)).
Definition test_reduced (d : Z) : bool :=
  forallb (fun a => forallb (fun b => forallb (fun c =>
    match c with Some 0 => true | _ => test_reduced_one d (Sl a b c) end) (bounds d)) (bounds d)) (bounds d).
(** test_reduced_passes *)
Check ltac:(passes (forallb test_reduced (zrange 1 10))).

(** test_slice.py:40-52 *)
Definition test_diophantine_one (a x : list Z) : bool :=
  let c := fold_right Z.add 0 (map2 Z.mul a x) in
  match diophantine a c with
  | Ok (Some (x0, xs)) =>
      forallb (fun t =>
        let x1 := fold_left (fun acc tz => map2 (fun p q => p + q * (fst tz - 3)) acc (snd tz)) (combine t xs) x0 in
        fold_right Z.add 0 (map2 Z.mul x1 a) =? c) (cart (map (fun _ => 6) xs))
  | _ => false
  end.
Definition test_diophantine (a : list Z) : bool :=
  test_diophantine_one a (zrange (-3) (zlen a - 3)) && test_diophantine_one a (zseq (zlen a)).
(** test_diophantine_passes *)
Check ltac:(passes (forallb test_diophantine
  [[4; 8]; [4; 8; 5]; [4; 8; 5; 7]; [-4; 8]; [4; -8; 5]; [2; -2; 6; -12; 6; 4]; [4; 6; 15; 16; 12]])).

(** test_slice.py:55-97 *)
Definition solves (sh st index : list Z) : bool :=
  is_ok (fun a b => match a, b with Some i, Some j => zlist_eqb i j | _, _ => false end)
    (solve_index (fold_right Z.add 0 (map2 Z.mul st index)) sh st) (Some index).
Definition solves_slice (nix : list nind) (sh : list Z) : bool :=
  match index_strided nix sh (make_strides sh) 0 with
  | Ok (sh1, st1, _) => forallb (solves sh1 st1) (cart sh1)
  | Raise _ => false
  end.
Definition test_solve_slices (n : Z) : list pyslice :=
  [Sl None None None; Sl None (Some 1) None; Sl None (Some (n - 1)) None; Sl (Some 1) None (Some 2); Sl None None (Some (-1))].
Definition test_solve_shape (sh : list Z) : bool :=
  let N := length sh in
  forallb (fun axis =>
    let n := nth axis sh 0 in
    let slices := test_solve_slices n in
    let last := reduced (Sl None None (Some (-1))) n in
    forallb (fun sl => solves_slice (repeat NNone axis ++ [NSl (reduced sl n)] ++ repeat NNone (N - axis - 1)) sh) slices
    && forallb (fun axis2 =>
         forallb (fun sl2 => solves_slice (repeat NNone axis ++ [NSl last] ++ repeat NNone (axis2 - axis - 1)
                                           ++ [NSl (reduced sl2 (nth axis2 sh 0))] ++ repeat NNone (N - axis2 - 1)) sh) slices)
         (seq (S axis) (N - axis - 1))) (seq 0 N).
Example test_solve_index_passes :
  solve_index 0 [] [] = Ok (Some [])
  /\ forallb (solves [12; 2] [2; 1]) (cart [12; 2]) = true.
Proof. vm_compute. repeat split. Qed.
Check ltac:(passes (forallb test_solve_shape [[2; 3]; [4; 5]; [4; 3; 2]; [2; 3; 4; 5]; [2]; [5]; [1; 1]])).

(** * test_gcs_basics.py *)
Fixpoint inserts {A} (x : A) (l : list A) : list (list A) :=
  match l with [] => [[x]] | y :: r => (x :: l) :: map (cons y) (inserts x r) end.
Fixpoint permutations {A} (l : list A) : list (list A) :=
  match l with [] => [[]] | x :: r => flat_map (inserts x) (permutations r) end.
(** test_gcs_basics.py:6-36: one shape and one partitioning *)
Definition test_reduction (sh part : list Z) : bool :=
  forallb (fun dims =>
    match create_reduction_metadata sh dims part with
    | Ok md => forallb (fun i => match reduction md i with
                                 | Ok r => Nat.eqb (length r) (S (length part)) && is_ok zlist_eqb (promotion (zlen sh) md r) i
                                 | Raise _ => false
                                 end) (cart sh)
    | Raise _ => false
    end) (permutations (zseq (zlen sh))).
(** test_reduction_1d_passes *)
Check ltac:(passes (forallb (fun sh => test_reduction sh []) [[1]; [5]; [3; 4]; [3; 4; 5; 2; 1]])).
(** test_reduction_2d_passes *)
Check ltac:(passes (forallb (fun sh => forallb (fun p => test_reduction sh [p]) (zrange 1 (zlen sh))) [[3; 4]; [3; 4; 2]; [3; 4; 5; 2; 1]])).
(** test_reduction_3d_passes *)
Check ltac:(passes (forallb (fun sh => forallb (fun p1 => forallb (fun p2 => test_reduction sh [p1; p2]) (zrange (p1 + 1) (zlen sh)))
    (zrange 1 (zlen sh - 1))) [[3; 4; 2]; [3; 4; 5; 2; 1]])).
(** test_gcs_basics.py:38-51 *)
Example test_compress_indices_passes :
  compress_indices [0; 1; 2; 3; 4] 5 = Ok [0; 1; 2; 3; 4; 5]
  /\ compress_indices [0; 1; 2] 3 = Ok [0; 1; 2; 3]
  /\ compress_indices [0; 1; 1] 3 = Ok [0; 1; 3; 3]
  /\ compress_indices [0; 0; 2] 3 = Ok [0; 2; 2; 3]
  /\ compress_indices [1; 1; 2] 3 = Ok [0; 0; 2; 3]
  /\ compress_indices [0; 0; 1; 1; 1; 2; 2; 2; 2] 3 = Ok [0; 2; 5; 9]
  /\ compress_indices [0; 0; 2; 2; 2; 2] 3 = Ok [0; 2; 2; 6]
  /\ compress_indices [] 3 = Ok [0; 0; 0; 0]
  /\ compress_indices [0] 3 = Ok [0; 1; 1; 1]
  /\ compress_indices [2] 3 = Ok [0; 0; 0; 1].
Proof. vm_compute. repeat split. Qed.

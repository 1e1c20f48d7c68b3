(** Model of gcs/slice_tools.py. *)
From Verif Require Import Py.

(** A slice object whose three fields are integers: what [reduced] returns.
    slice_tools.py:10-53. *)
Record rsl := RSl { r_start : Z; r_stop : Z; r_step : Z }.
Definition to_slice (r : rsl) : pyslice :=
  Sl (Some (r_start r)) (Some (r_stop r)) (Some (r_step r)).

(** reduced: slice_tools.py:10-53. *)
Definition reduced (s : pyslice) (size : Z) : rsl :=
  let step := match sl_step s with None => 1 | Some k => k end in
  let '(start, stop, step) :=
    if 0 <? step then
      let start :=
        match sl_start s with
        | None => 0
        | Some st =>
            if st <? - size then 0
            else if st <? 0 then st + size
            else if size <? st then size
            else st
        end in
      let stop :=
        match sl_stop s with
        | None => size
        | Some sp =>
            if size <? sp then size
            else if sp <? - size then 0
            else if sp <? 0 then sp + size
            else sp
        end in
      let step := if size <? step then size else step in
      (start, stop, step)
    else
      let start :=
        match sl_start s with
        | None => -1
        | Some st =>
            if size <=? st then -1
            else if st <? - size then - size - 1
            else if 0 <=? st then st - size
            else st
        end in
      let stop :=
        match sl_stop s with
        | None => - size - 1
        | Some sp =>
            if sp <? - size then - size - 1
            else if size <=? sp then -1
            else if 0 <=? sp then sp - size
            else sp
        end in
      let step := if step <? - size then - size else step in
      (start, stop, step) in
  if (stop - start) * step <=? 0 then RSl 0 0 1 else RSl start stop step.

(** nitems with reduce=False: slice_tools.py:69-72.  A zero step with
    stop != start raises ZeroDivisionError in [s.step // abs(s.step)]. *)
Definition nitems_r (r : rsl) : res Z :=
  if r_stop r =? r_start r then Ok 0
  else
    sgn <- pydiv (r_step r) (Z.abs (r_step r)) ;;
    q <- pydiv ((r_stop r - r_start r) + r_step r - sgn) (r_step r) ;;
    Ok (Z.max 0 q).

(** nitems with reduce=True: slice_tools.py:56-72. *)
Definition nitems (s : pyslice) (size : Z) : res Z := nitems_r (reduced s size).

(** Items of a normalized index.  slice_tools.py:98-151. *)
Inductive nind := NInt (z : Z) | NSl (r : rsl) | NNone.
Definition nind_to_ind (n : nind) : ind :=
  match n with NInt z => IInt z | NSl r => ISlice (to_slice r) | NNone => INone end.

(** Result of index_strided and apply_slices: shape, strides, offset.
    slice_tools.py:75-144. *)
Definition geom := (list Z * list Z * Z)%type.

(** apply_slices: slice_tools.py:75-95.  The loop over
    zip(shape, strides, slices) is a recursion; [offset] is the accumulator. *)
Fixpoint apply_slices (slices : list ind) (shape strides : list Z) (offset : Z) : res geom :=
  match shape, strides, slices with
  | size :: sh, stride :: st, s :: sls =>
      match s with
      | IInt i =>
          m <- pymod i size ;;
          apply_slices sls sh st (offset + stride * m)
      | ISlice sl =>
          let r := reduced sl size in
          m <- pymod (r_start r) size ;;
          c <- nitems_r r ;;
          '(nsh, nst, off) <- apply_slices sls sh st (offset + stride * m) ;;
          Ok (c :: nsh, stride * r_step r :: nst, off)
      | INone =>
          '(nsh, nst, off) <- apply_slices sls sh st offset ;;
          Ok (size :: nsh, stride :: nst, off)
      | IOther => Raise ValueError
      end
  | _, _, _ => Ok ([], [], offset)
  end.

(** shape_strided: slice_tools.py:98-105 (for normalized indices). *)
Fixpoint shape_strided (index : list nind) (shape : list Z) : res (list Z) :=
  match index, shape with
  | NSl r :: ix, _ :: sh =>
      c <- nitems_r r ;; rest <- shape_strided ix sh ;; Ok (c :: rest)
  | NNone :: ix, size :: sh =>
      rest <- shape_strided ix sh ;; Ok (size :: rest)
  | NInt _ :: ix, _ :: sh => shape_strided ix sh
  | _, _ => Ok []
  end.

(** index_strided: slice_tools.py:108-127.  Its docstring requires a normalized
    index, so the item type is [nind]. *)
Fixpoint index_strided (index : list nind) (shape strides : list Z) (offset : Z) : res geom :=
  match index, shape, strides with
  | i :: ix, size :: sh, stride :: st =>
      match i with
      | NInt z => index_strided ix sh st (offset + stride * z)
      | NSl r =>
          m <- pymod (r_start r) size ;;
          c <- nitems_r r ;;
          '(nsh, nst, off) <- index_strided ix sh st (offset + stride * m) ;;
          Ok (c :: nsh, stride * r_step r :: nst, off)
      | NNone =>
          '(nsh, nst, off) <- index_strided ix sh st offset ;;
          Ok (size :: nsh, stride :: nst, off)
      end
  | _, _, _ => Ok ([], [], offset)
  end.

(** The tuple branch of normalize_index: slice_tools.py:139-151.  A None item
    beyond the last axis is skipped, an int or slice there raises IndexError
    (from [shape[i]]). *)
Fixpoint normalize_tuple (index : list ind) (shape : list Z) : res (list nind) :=
  match index with
  | [] => Ok (map (fun _ => NNone) shape)
  | i :: ix =>
      match i, shape with
      | IOther, _ => Raise ValueError
      | INone, [] => normalize_tuple ix []
      | INone, _ :: sh => rest <- normalize_tuple ix sh ;; Ok (NNone :: rest)
      | _, [] => Raise IndexError
      | IInt z, n :: sh =>
          m <- pymod z n ;; rest <- normalize_tuple ix sh ;; Ok (NInt m :: rest)
      | ISlice s, n :: sh =>
          rest <- normalize_tuple ix sh ;; Ok (NSl (reduced s n) :: rest)
      end
  end.

(** normalize_index: slice_tools.py:130-151.  An index that is neither int,
    slice, None nor a sequence fails in [len(index)] with TypeError. *)
Definition normalize_index (index : pyindex) (shape : list Z) : res (list nind) :=
  match index with
  | XItem (IInt z) =>
      match shape with
      | [] => Raise IndexError
      | n :: sh => m <- pymod z n ;; Ok (NInt m :: map (fun _ => NNone) sh)
      end
  | XItem (ISlice s) =>
      match shape with
      | [] => Raise IndexError
      | n :: sh => Ok (NSl (reduced s n) :: map (fun _ => NNone) sh)
      end
  | XItem INone => Ok (map (fun _ => NNone) shape)
  | XItem IOther => Raise TypeError
  | XTuple l => normalize_tuple l shape
  end.

(** extgcd: slice_tools.py:154-160.  The recursion is bounded by a fuel of about
    twice the bit length of [a]; [extgcd_eq] (ExtgcdFacts.v) shows that the
    source's recursion equation holds for all integers. *)
Fixpoint extgcd_fuel (fuel : nat) (a b : Z) : Z * Z * Z :=
  match fuel with
  | O => (b, 0, 1)
  | S f =>
      if a =? 0 then (b, 0, 1)
      else
        let '(g, x1, y1) := extgcd_fuel f (b mod a) a in
        (g, y1 - (b / a) * x1, x1)
  end.
Definition extgcd (a b : Z) : Z * Z * Z :=
  extgcd_fuel (S (S (2 * Z.to_nat (Z.log2 (Z.abs a) + 1)))) a b.

(** The tuples (d, x0, y0, xs, ys, z0, ds) of _init_diophantine; only the
    fields used by init_diophantine are kept: d, z0, ds.  [dio_ds] is the tuple
    of rows [ds] (one row per unknown, one column per free parameter).
    slice_tools.py:163-183. *)
Record dio := Dio { dio_d : Z; dio_z0 : list Z; dio_ds : list (list Z) }.

Definition zscale (c : Z) (l : list Z) : list Z := map (fun z => c * z) l.

(** _init_diophantine: slice_tools.py:163-183, for the coefficients
    [a0 :: rest].  The source returns the list of the entries of all levels, of
    which init_diophantine uses the first one's d (the gcd of all coefficients)
    and the last one's z0 and ds; here the result carries just these three.
    [None] stands for the empty list of a single coefficient. *)
Fixpoint init_dio_rec (a0 : Z) (rest : list Z) : res (option dio) :=
  match rest with
  | [] => Ok None
  | a1 :: r =>
      let '(d, x0, y0) := extgcd a0 a1 in
      q1 <- pydiv a1 d ;;
      q0 <- pydiv a0 d ;;
      let xs := - q1 in
      let ys := q0 in
      next <- init_dio_rec d r ;;
      let '(dl, zs, z0) :=
        match next with
        | Some e => (dio_d e, dio_ds e, dio_z0 e)
        | None => (d, [[]], [1])
        end in
      let zs0 := hd [] zs in
      let s0 := xs :: zscale x0 zs0 in
      let s1 := ys :: zscale y0 zs0 in
      let sr := map (cons 0) (tl zs) in
      let z00 := hd 0 z0 in
      Ok (Some (Dio dl ([x0 * z00; y0 * z00] ++ tl z0) (s0 :: s1 :: sr)))
  end.

(** Transposition [tuple(zip( *zs))]: slice_tools.py:216. *)
Definition transpose (n : nat) (rows : list (list Z)) : list (list Z) :=
  map (fun j => map (fun r => nth j r 0) rows) (seq 0 n).

(** The matrix A of init_diophantine, slice_tools.py:219-235, as a list of 2N
    rows; row i < N is built from row i of ds, row N+i from its negation.
    [shape] is None or the list of sizes. *)
Definition unit_row (i len : nat) : list Z :=
  map (fun j => if Nat.eqb i j then 1 else 0) (seq 0 len).
Definition dio_matrix (N n : nat) (z0 : list Z) (ds : list (list Z))
    (shape : option (list Z)) : list (list Z) :=
  map (fun i =>
         nth i ds [] ++ unit_row i (2 * N - n) ++ [- nth i z0 0]
           ++ match shape with None => [] | Some _ => [0] end) (seq 0 N)
  ++
  map (fun i =>
         map Z.opp (nth i ds []) ++ unit_row (N + i) (2 * N - n) ++ [nth i z0 0]
           ++ match shape with None => [] | Some sh => [- nth i sh 0 + 1] end) (seq 0 N).

Fixpoint map2 (f : Z -> Z -> Z) (a b : list Z) : list Z :=
  match a, b with
  | x :: a', y :: b' => f x y :: map2 f a' b'
  | _, _ => []
  end.

(** One pivot of the elimination, slice_tools.py:239-248: every row k != i is
    replaced by row_i * aki - row_k * aii unless aki == 0.  The assertion
    A[k,i] == 0 of line 248 holds by construction. *)
Definition elim_step (i : nat) (A : list (list Z)) : res (list (list Z)) :=
  let ri := nth i A [] in
  let aii := nth i ri 0 in
  if aii =? 0 then Raise AssertionError
  else Ok (map (fun k =>
                  let rk := nth k A [] in
                  if Nat.eqb i k then rk
                  else
                    let aki := nth i rk 0 in
                    if aki =? 0 then rk
                    else map2 (fun x y => x * aki - y * aii) ri rk)
               (seq 0 (length A))).

Fixpoint elim_steps (is : list nat) (A : list (list Z)) : res (list (list Z)) :=
  match is with
  | [] => Ok A
  | i :: r => A' <- elim_step i A ;; elim_steps r A'
  end.

(** Row normalization for i < n, slice_tools.py:251-258: the triple
    (A[i,i], A[i,2N], A[i,2N+1]) divided by the gcd computed by extgcd. *)
Definition norm_row (has_shape : bool) (dii bi si : Z) : Z * Z * Z :=
  let g := fst (fst (extgcd dii bi)) in
  let g := if has_shape then fst (fst (extgcd g si)) else g in
  if g =? 1 then (dii, bi, si) else (dii / g, bi / g, si / g).

(** The tuple (d, z0, zs, D, b, s) returned by init_diophantine; [sd_s] = None
    is Python's None.  slice_tools.py:186-263. *)
Record soldata := SD {
  sd_d : Z; sd_z0 : list Z; sd_zs : list (list Z);
  sd_D : list Z; sd_b : list Z; sd_s : option (list Z) }.

(** init_diophantine (= get_solve_index_data): slice_tools.py:186-263, 366. *)
Definition init_diophantine (a : list Z) (shape : option (list Z)) : res soldata :=
  match a with
  | [] => Ok (SD 1 [] [] [] [] None)
  | [d] => Ok (SD d [1] [] [] [] shape)
  | a0 :: rest =>
      e <- init_dio_rec a0 rest ;;
      match e with
      | None => Raise OutOfModel     (* not reached: rest is not empty *)
      | Some e =>
          let N := length a in
          let n := (N - 1)%nat in
          let zs := transpose n (dio_ds e) in
          _ <- (match shape with
                | None => Ok tt
                | Some sh => if Nat.ltb (length sh) N then Raise IndexError else Ok tt
                end) ;;
          A <- elim_steps (seq 0 (2 * N)) (dio_matrix N n (dio_z0 e) (dio_ds e) shape) ;;
          let has := match shape with None => false | Some _ => true end in
          let rows := map (fun i =>
                             let r := nth i A [] in
                             norm_row has (nth i r 0) (nth (2 * N) r 0) (nth (2 * N + 1) r 0))
                          (seq 0 n) in
          Ok (SD (dio_d e) (dio_z0 e) zs
                 (map (fun t => fst (fst t)) rows)
                 (map (fun t => snd (fst t)) rows)
                 (match shape with
                  | None => None
                  | Some _ => Some (map snd rows)
                  end))
      end
  end.

(** diophantine: slice_tools.py:266-278. *)
Definition diophantine (a : list Z) (c : Z) : res (option (list Z * list (list Z))) :=
  sd <- init_diophantine a None ;;
  m <- pymod c (sd_d sd) ;;
  if negb (m =? 0) then Ok None
  else
    k <- pydiv c (sd_d sd) ;;
    Ok (Some (zscale k (sd_z0 sd), sd_zs sd)).

(** dot and axpy: slice_tools.py:281-286 (dot is [zdot]). *)
Definition axpy (a : Z) (x y : list Z) : list Z := map2 (fun u v => a * u + v) x y.

(** The bounds check of solve_index, slice_tools.py:358-362: [index[i]] raises
    IndexError when index is shorter than shape. *)
Fixpoint in_shape (index shape : list Z) : res bool :=
  match shape, index with
  | [], _ => Ok true
  | _ :: _, [] => Raise IndexError
  | n :: sh, i :: ix => if (0 <=? i) && (i <? n) then in_shape ix sh else Ok false
  end.

(** The accumulation loop of solve_index, slice_tools.py:352-357. *)
Fixpoint accum (k : Z) (zs : list (list Z)) (D b : list Z) (s : option (list Z))
    (dt : list Z) (index : list Z) : res (list Z) :=
  match zs, D, b, dt with
  | z :: zs', Di :: D', bi :: b', dti :: dt' =>
      match s with
      | Some (si :: s') =>
          q <- pydiv (bi * k + si) Di ;;
          accum k zs' D' b' (Some s') dt' (axpy (q + dti) z index)
      | Some [] => Raise IndexError
      | None =>
          q <- pydiv (bi * k) Di ;;
          accum k zs' D' b' None dt' (axpy (q + dti) z index)
      end
  | [], _, _, _ => Ok index
  | _, _, _, _ => Raise IndexError
  end.

(** The dt loop of solve_index, slice_tools.py:350-363. *)
Fixpoint try_dts (k : Z) (sd : soldata) (shape : list Z) (dts : list (list Z))
    : res (option (list Z)) :=
  match dts with
  | [] => Ok None
  | dt :: r =>
      index <- accum k (sd_zs sd) (sd_D sd) (sd_b sd) (sd_s sd) dt
                 (axpy k (sd_z0 sd) (map (fun _ => 0) (sd_z0 sd))) ;;
      ok <- in_shape index shape ;;
      if ok : bool then Ok (Some index) else try_dts k sd shape r
  end.

(** solve_index with precomputed data: slice_tools.py:341-363. *)
Definition solve_index_data (pos : Z) (shape : list Z) (sd : soldata) : res (option (list Z)) :=
  _ <- assert_ (match shape, sd_s sd with [], _ => true | _, Some _ => true | _, None => false end) ;;
  m <- pymod pos (sd_d sd) ;;
  if negb (m =? 0) then Ok None
  else
    k <- pydiv pos (sd_d sd) ;;
    try_dts k sd shape (cart (map (fun _ => 2) (sd_zs sd))).

(** solve_index: slice_tools.py:308-363. *)
Definition solve_index (pos : Z) (shape strides : list Z) : res (option (list Z)) :=
  sd <- init_diophantine strides (Some shape) ;;
  solve_index_data pos shape sd.

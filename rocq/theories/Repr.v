(** When a storage object in a heap represents an array: the data structure
    invariants of the storage classes, and the array each object stands for. *)
From Coq Require Import Sorting.Sorted Permutation.
From Verif Require Import Py SliceTools Basics Storage Spec ReduceFacts.

(** The window [boff, boff+bsize) of the shared list holds the values [vs]. *)
Definition holds (h : heap) (b : buffer) (vs : list pyval) : Prop :=
  exists l, nth_error h (baddr b) = Some l
    /\ 0 <= boff b /\ bsize b = zlen vs /\ boff b + bsize b <= zlen l
    /\ firstn (length vs) (skipn (Z.to_nat (boff b)) l) = vs.

(** Position in the shared list of element [i] of a Strided. *)
Definition spos (t : strided) (i : list Z) : Z := boff (sdata t) + zdot i (sstrides t).

(** Strided: every index of the box has its own position, inside the list and
    before the end of the window. *)
Record strided_ok (t : strided) (l : list pyval) : Prop := {
  so_shape : nonneg (sshape t);
  so_strides : length (sstrides t) = length (sshape t);
  so_off : 0 <= boff (sdata t);
  so_end : boff (sdata t) + bsize (sdata t) <= zlen l;
  so_size : 0 <= bsize (sdata t);
  so_pos : forall i, in_box i (sshape t) -> 0 <= spos t i < boff (sdata t) + bsize (sdata t);
  so_inj : forall i j, in_box i (sshape t) -> in_box j (sshape t) -> spos t i = spos t j -> i = j }.

(** Entries of a sparse array: distinct indices in row-major order with their
    values. *)
Definition ordered (sh : list Z) (E : list (list Z * pyval)) : Prop :=
  Forall (fun e => in_box (fst e) sh) E /\ StronglySorted row_major_lt (map fst E).

(** The value at an index: the stored one, or the unspecified value. *)
Definition lookup (E : list (list Z * pyval)) (u : pyval) (i : list Z) : pyval :=
  match find (fun e => lex_eqb (fst e) i) E with Some e => snd e | None => u end.

(** Column [k] of the indices. *)
Definition column (k : nat) (E : list (list Z * pyval)) : list Z := map (fun e => nth k (fst e) 0) E.

(** The sparse storages and the entries they store. *)
Definition entries (h : heap) (s : storage) (E : list (list Z * pyval)) : Prop :=
  match s with
  | SCOO sh ind d =>
      nonneg sh /\ sh <> [] /\ ordered sh E
      /\ holds h d (map snd E)
      /\ sshape ind = [zlen sh; zlen E] /\ sstrides ind = [zlen E; 1]
      /\ holds h (sdata ind) (map VInt (concat (map (fun k => column k E) (seq 0 (length sh)))))
      /\ baddr (sdata ind) <> baddr d /\ bunspec (sdata ind) = VNone
  | SFlatCOO sh f d =>
      nonneg sh /\ sh <> [] /\ ordered sh E
      /\ holds h d (map snd E)
      /\ holds h f (map (fun e => VInt (zdot (fst e) (c_strides sh))) E)
      /\ baddr f <> baddr d /\ bunspec f = VNone
  | SCSR sh crow col d =>
      nonneg sh /\ length sh = 2%nat /\ ordered sh E
      /\ holds h d (map snd E)
      /\ holds h crow (map (fun r => VInt (zlen (filter (fun x => x <? r) (column 0 E))))
                           (zseq (nth 0 sh 0 + 1)))
      /\ holds h col (map VInt (column 1 E))
      /\ baddr crow <> baddr d /\ baddr col <> baddr d
      /\ bunspec crow = VNone /\ bunspec col = VNone
  | _ => False
  end.

(** Position in the reduced array of the element with index [i]. *)
Fixpoint dm_index (rdims rstrides : list (list Z)) (roffset i : list Z) : list Z :=
  match rdims, rstrides, roffset with
  | g :: gs, st :: sts, o :: os => o + zdot (gather i g) st :: dm_index gs sts os i
  | _, _, _ => []
  end.

Record dm_ok (sh : list Z) (rdims rshapes rstrides : list (list Z)) (roffset dshape : list Z)
    : Prop := {
  dm_shape : nonneg sh;
  dm_groups : rdims <> [];
  dm_perm : Permutation (concat rdims) (zseq (zlen sh));
  dm_rshapes : rshapes = map (gather sh) rdims;
  dm_rstrides : Forall2 (fun g st => length g = length st) rdims rstrides;
  dm_roffset : length roffset = length rdims;
  dm_box : forall i, in_box i sh -> in_box (dm_index rdims rstrides roffset i) dshape;
  dm_inj : forall i j, in_box i sh -> in_box j sh ->
           dm_index rdims rstrides roffset i = dm_index rdims rstrides roffset j -> i = j }.

(** [repr h s f]: in heap [h] the storage [s] is well formed and its element at
    each index [i] of its shape is [f i]. *)
Fixpoint repr (h : heap) (s : storage) (f : list Z -> pyval) {struct s} : Prop :=
  match s with
  | SBuffer b => exists vs, holds h b vs /\ forall x, 0 <= x < zlen vs -> f [x] = nth (Z.to_nat x) vs VNone
  | SStrided t =>
      exists l, nth_error h (baddr (sdata t)) = Some l /\ strided_ok t l
        /\ forall i, in_box i (sshape t) -> f i = nth (Z.to_nat (spos t i)) l VNone
  | SDM sh rdims rshapes rstrides roffset d =>
      exists g, repr h d g /\ dm_ok sh rdims rshapes rstrides roffset (shape_of d)
        /\ forall i, in_box i sh -> f i = g (dm_index rdims rstrides roffset i)
  | _ => exists E, entries h s E
        /\ forall i, in_box i (shape_of s) -> f i = lookup E (unspecified_of s) i
  end.

(** Well-formed storages. *)
Definition valid (h : heap) (s : storage) : Prop := exists f, repr h s f.

(** The list cells a storage reads: the data cell, then the index cells. *)
Fixpoint data_addr (s : storage) : nat :=
  match s with
  | SBuffer b => baddr b
  | SStrided t => baddr (sdata t)
  | SCOO _ _ d | SFlatCOO _ _ d | SCSR _ _ _ d | SC2SR _ _ _ _ _ d => baddr d
  | SDM _ _ _ _ _ d => data_addr d
  end.
Fixpoint index_addrs (s : storage) : list nat :=
  match s with
  | SBuffer _ | SStrided _ => []
  | SCOO _ ind _ => [baddr (sdata ind)]
  | SFlatCOO _ f _ => [baddr f]
  | SCSR _ crow col _ => [baddr crow; baddr col]
  | SC2SR _ _ a b c _ => [baddr a; baddr b; baddr c]
  | SDM _ _ _ _ _ d => index_addrs d
  end.
Definition addrs (s : storage) : list nat := data_addr s :: index_addrs s.

(** [h'] is [h] with more lists allocated. *)
Definition extends (h h' : heap) : Prop := exists t, h' = h ++ t.

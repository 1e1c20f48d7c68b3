(** C44: indexing a Buffer, for every index. *)
From Coq Require Import ZifyBool.
From Verif Require Import Py SliceTools Basics Storage Spec SliceFacts IndexFacts
  CompressFacts ReduceFacts SolverFacts SolveFacts Repr ReprFacts ViewFacts BuildFacts SparseFacts
  ConvFacts FromFacts DMFacts ReadFacts MapFacts ChainFacts WriteFacts EffectFacts PropRead PropWrite PropIndex.

(** * Specification: indexing a window of [size] cells from position [off] of a
    list with [n] cells.  Positions count from the start of the list. *)
Inductive buffer_result :=
| BItself
| BElement (pos : Z)
| BWindow (start size : Z)
| BRaises (e : exn).

(** A position, or one counted from the end of the whole list. *)
Definition list_position (n p : Z) : option Z :=
  if (0 <=? p) && (p <? n) then Some p
  else if (- n <=? p) && (p <? 0) then Some (p + n)
  else None.

Definition buffer_index (n off size : Z) (i : ind) : buffer_result :=
  match i with
  | INone => BItself
  | IOther => BRaises TypeError
  | IInt k => match list_position n (off + k) with Some p => BElement p | None => BRaises IndexError end
  | ISlice s =>
      let start := off + match sl_start s with Some a => a | None => 0 end in
      let stop := off + match sl_stop s with Some a => a | None => size end in
      let step := match sl_step s with Some k => k | None => 1 end in
      if (0 <=? start) && (start <? n) && (0 <? stop) && (stop <=? n) then
        if (0 <? step) && (start <? stop) || (step <? 0) && (stop <? start) then
          if (step =? 1) || (n =? 1) then BWindow start (stop - start) else BRaises IndexError
        else BWindow 0 0
      else BRaises IndexError
  end.

Definition buffer_answer (l : list pyval) (b : buffer) (r : buffer_result) : res item :=
  match r with
  | BItself => Ok (ISto (SBuffer b))
  | BElement p => Ok (IVal (nth (Z.to_nat p) l VNone))
  | BWindow start size => Ok (ISto (SBuffer (Buf size start (baddr b) (bunspec b))))
  | BRaises e => Raise e
  end.

Lemma pyget_position {A} (l : list A) p d : pyget l p =
  match list_position (zlen l) p with Some q => Ok (nth (Z.to_nat q) l d) | None => Raise IndexError end.
Proof.
  unfold list_position. destruct ((0 <=? p) && (p <? zlen l)) eqn:E1.
  - now rewrite (pyget_ok _ _ d) by lia.
  - unfold pyget. destruct ((- zlen l <=? p) && (p <? 0)) eqn:E2.
    + replace (p <? 0) with true by lia. replace (p + zlen l <? 0) with false by lia.
      rewrite (nth_error_nth' l d) by (unfold zlen in *; lia). reflexivity.
    + destruct (p <? 0) eqn:E3; [now replace (p + zlen l <? 0) with true by lia|].
      rewrite E3. rewrite (proj2 (nth_error_None _ _)); [reflexivity|]. unfold zlen in *. lia.
Qed.

Lemma buf_slice_exact h b l s : nth_error h (baddr b) = Some l ->
  (b' <- buf_slice h b s ;; Ok (ISto (SBuffer b'))) = buffer_answer l b (buffer_index (zlen l) (boff b) (bsize b) (ISlice s)).
Proof.
  intros Hl. unfold buf_slice, mk_buffer. rewrite (cell_ok _ _ _ Hl). cbn [bind buffer_index].
  set (start := match sl_start s with Some x => boff b + x | None => boff b end).
  set (stop := match sl_stop s with Some x => boff b + x | None => boff b + bsize b end).
  replace (boff b + match sl_start s with Some a => a | None => 0 end) with start by (unfold start; destruct (sl_start s); lia).
  replace (boff b + match sl_stop s with Some a => a | None => bsize b end) with stop by (unfold stop; destruct (sl_stop s); lia).
  clearbody start stop. set (n := zlen l). assert (Hn : 0 <= n) by (unfold n, zlen; lia). clearbody n.
  set (step := match sl_step s with Some k => k | None => 1 end).
  destruct ((start <? 0) || (n <=? start)) eqn:E1.
  { now replace ((0 <=? start) && (start <? n) && (0 <? stop) && (stop <=? n)) with false by lia. }
  destruct ((stop <=? 0) || (n <? stop)) eqn:E2.
  { now replace ((0 <=? start) && (start <? n) && (0 <? stop) && (stop <=? n)) with false by lia. }
  replace ((0 <=? start) && (start <? n) && (0 <? stop) && (stop <=? n)) with true by lia.
  set (sl := Sl (Some start) (Some stop) (sl_step s)).
  assert (Er : reduced sl n = if (0 <? step) && (start <? stop) then RSl start stop (Z.min step n)
    else if (step <? 0) && (stop <? start) then RSl (start - n) (stop - n) (Z.max step (- n)) else RSl 0 0 1).
  { unfold reduced, sl. cbn [sl_start sl_stop sl_step]. fold step.
    destruct (0 <? step) eqn:K1.
    - replace (start <? - n) with false by lia. replace (start <? 0) with false by lia. replace (n <? start) with false by lia.
      replace (n <? stop) with false by lia. replace (stop <? - n) with false by lia. replace (stop <? 0) with false by lia.
      replace (if n <? step then n else step) with (Z.min step n) by (destruct (n <? step) eqn:?; lia).
      cbn [andb]. replace (step <? 0) with false by lia. cbn [andb].
      destruct (start <? stop) eqn:K2; [replace (_ <=? 0) with false by nia|replace (_ <=? 0) with true by nia]; reflexivity.
    - replace (n <=? start) with false by lia. replace (start <? - n) with false by lia. replace (0 <=? start) with true by lia.
      replace (stop <? - n) with false by lia. replace (0 <=? stop) with true by lia.
      replace (if step <? - n then - n else step) with (Z.max step (- n)) by (destruct (step <? - n) eqn:?; lia).
      cbn [andb]. destruct (step =? 0) eqn:K0.
      { replace (step <? 0) with false by lia. cbn [andb]. replace (Z.max step (- n)) with 0 by lia. rewrite Z.mul_0_r. reflexivity. }
      replace (step <? 0) with true by lia. cbn [andb].
      destruct (stop <? start) eqn:K2.
      + replace (n <=? stop) with false by lia. replace (_ <=? 0) with false by nia. reflexivity.
      + destruct (n <=? stop) eqn:K3; replace (_ <=? 0) with true by nia; reflexivity. }
  rewrite Er. destruct ((0 <? step) && (start <? stop)) eqn:K1; cbn [orb].
  - cbn [r_start r_stop r_step]. destruct ((step =? 1) || (n =? 1)) eqn:K2.
    + replace (Z.min step n =? 1) with true by lia. cbn [negb].
      replace (start + (stop - start) <=? n) with true by lia. reflexivity.
    + replace (Z.min step n =? 1) with false by lia. reflexivity.
  - destruct ((step <? 0) && (stop <? start)) eqn:K3.
    + cbn [r_start r_stop r_step]. replace (Z.max step (- n) =? 1) with false by lia.
      replace ((step =? 1) || (n =? 1)) with false by lia. reflexivity.
    + cbn [r_start r_stop r_step negb Z.eqb Pos.eqb]. replace (0 + (0 - 0) <=? n) with true by lia. reflexivity.
Qed.

(** Reading with any index: an integer, a slice with any bounds and step, None,
    any other object, or a tuple of these. *)
Theorem C44_exactly : forall h b l ix, nth_error h (baddr b) = Some l ->
  getitem h (SBuffer b) ix =
    match ix with
    | XItem i | XTuple [i] =>
        r <- buffer_answer l b (buffer_index (zlen l) (boff b) (bsize b) i) ;; Ok (r, h)
    | XTuple _ => Raise AssertionError
    end.
Proof.
  intros h b l ix Hl. cbn [getitem]. unfold buffer_getitem.
  assert (G : forall i, (r <- match i with
      | INone => Ok (ISto (SBuffer b)) | ISlice s => b' <- buf_slice h b s ;; Ok (ISto (SBuffer b'))
      | IInt z => v <- buf_get h b z ;; Ok (IVal v) | IOther => Raise TypeError end ;; Ok (r, h))
    = (r <- buffer_answer l b (buffer_index (zlen l) (boff b) (bsize b) i) ;; Ok (r, h))).
  { intros [k|s| |]; [|now rewrite (buf_slice_exact h b l s Hl)|reflexivity|reflexivity].
    unfold buf_get. rewrite (cell_ok _ _ _ Hl). cbn [bind buffer_index]. rewrite (pyget_position l (boff b + k) VNone).
    destruct (list_position (zlen l) (boff b + k)); reflexivity. }
  destruct ix as [i|[|i [|j r]]]; cbn [buf_complete_index bind]; try reflexivity; apply G.
Qed.
Print Assumptions C44_exactly.

(** Assignment: integers only, to the cell that reading gives. *)
Theorem C44_assign_exactly : forall h b l ix v, nth_error h (baddr b) = Some l ->
  setitem h (SBuffer b) ix (SrcSeq v) =
    match ix with
    | XItem (IInt k) | XTuple [IInt k] =>
        match list_position (zlen l) (boff b + k) with
        | Some p => (set_nth (baddr b) (set_nth (Z.to_nat p) v l) h, Ok tt)
        | None => (h, Raise IndexError)
        end
    | _ => (h, Raise AssertionError)
    end.
Proof.
  intros h b l ix v Hl. cbn [setitem]. unfold buffer_setitem, buf_write, buf_set.
  assert (G : forall k, (l' <- pyset l (boff b + k) v ;; Ok (set_nth (baddr b) l' h))
    = match list_position (zlen l) (boff b + k) with
      | Some p => Ok (set_nth (baddr b) (set_nth (Z.to_nat p) v l) h) | None => Raise IndexError end).
  { intros k. set (p := boff b + k). unfold pyset, list_position.
    destruct ((0 <=? p) && (p <? zlen l)) eqn:E1.
    - replace (p <? 0) with false by lia. replace ((p <? 0) || (zlen l <=? p)) with false by lia. reflexivity.
    - destruct ((- zlen l <=? p) && (p <? 0)) eqn:E2.
      + replace (p <? 0) with true by lia. replace ((p + zlen l <? 0) || (zlen l <=? p + zlen l)) with false by lia. reflexivity.
      + destruct (p <? 0) eqn:E3.
        * replace ((p + zlen l <? 0) || (zlen l <=? p + zlen l)) with true by lia. reflexivity.
        * replace ((p <? 0) || (zlen l <=? p)) with true by lia. reflexivity. }
  rewrite (cell_ok _ _ _ Hl). cbn [bind].
  destruct ix as [[k|s| |]|[|[k|s| |] [|j r]]]; cbn [buf_complete_index]; try reflexivity;
    rewrite (G k); destruct (list_position (zlen l) (boff b + k)); reflexivity.
Qed.
Print Assumptions C44_assign_exactly.

(** The constructor accepts exactly the windows that end inside the list. *)
Theorem C44_constructor : forall h size offset a u l, nth_error h a = Some l ->
  (offset + size <= zlen l -> mk_buffer h size offset a u = Ok (Buf size offset a u))
  /\ (zlen l < offset + size -> mk_buffer h size offset a u = Raise AssertionError).
Proof.
  intros h size offset a u l Hl. unfold mk_buffer. rewrite (cell_ok _ _ _ Hl). cbn [bind]. split; intros H.
  - now replace (offset + size <=? zlen l) with true by lia.
  - now replace (offset + size <=? zlen l) with false by lia.
Qed.
Print Assumptions C44_constructor.

(** The window b = Buffer(2, 1, [1, 2, 3, 4]) reads cell 0 with b[-1] and the last
    cell with b[-2]; b[-1:3] is larger than b; a step other than 1 is rejected. *)
Example C44_exactly_case :
  let h := [map VInt [1; 2; 3; 4]] in
  let b := Buf 2 1 0%nat VNone in
  getitem h (SBuffer b) (at_ (-1)) = Ok (IVal (VInt 1), h)
  /\ getitem h (SBuffer b) (at_ (-2)) = Ok (IVal (VInt 4), h)
  /\ getitem h (SBuffer b) (window (-1) 3) = Ok (ISto (SBuffer (Buf 4 0 0%nat VNone)), h)
  /\ getitem h (SBuffer b) (XItem (ISlice (Sl None None (Some 2)))) = Raise IndexError
  /\ getitem h (SBuffer b) (XTuple [IInt 0; IInt 0]) = Raise AssertionError.
Proof. repeat split. Qed.

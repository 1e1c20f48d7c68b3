(** C43, C44: integer indices and buffer windows. *)
From Coq Require Import ZifyBool.
From Verif Require Import Py SliceTools Basics Storage Spec SliceFacts IndexFacts
  CompressFacts ReduceFacts SolverFacts SolveFacts Repr ReprFacts ViewFacts BuildFacts SparseFacts
  ConvFacts FromFacts DMFacts ReadFacts MapFacts ChainFacts WriteFacts PropRead PropWrite.

(** ** C43 *)

(** The index with every integer reduced modulo the size of its axis. *)
Fixpoint wrap_items (items : list ind) (shape : list Z) : list ind :=
  match items, shape with
  | IInt k :: r, n :: sh => IInt (k mod n) :: wrap_items r sh
  | i :: r, _ :: sh => i :: wrap_items r sh
  | _, _ => items
  end.
Definition wrap (ix : pyindex) (shape : list Z) : pyindex := XTuple (wrap_items (index_items ix) shape).

Lemma wrap_items_length items : forall sh, length (wrap_items items sh) = length items.
Proof.
  induction items as [|i r IH]; intros [|n sh]; cbn [wrap_items]; try reflexivity; [now destruct i|].
  destruct i; cbn [length]; now rewrite IH.
Qed.

Lemma wrap_items_norm items : forall sh, positive sh -> norm_items (wrap_items items sh) sh = norm_items items sh.
Proof.
  induction items as [|i r IH]; intros [|n sh] Hp; cbn [wrap_items norm_items]; try reflexivity.
  inversion Hp; subst. destruct i; cbn [norm_items]; rewrite IH by assumption; try reflexivity.
  now rewrite Z.mod_mod by lia.
Qed.

Lemma wrap_items_ok items : forall sh, Forall ok_item items -> Forall ok_item (wrap_items items sh).
Proof.
  induction items as [|i r IH]; intros [|n sh] H; cbn [wrap_items]; try assumption; [now destruct i|].
  inversion H; subst. destruct i; constructor; auto.
Qed.

Lemma normalize_wrap ix sh : positive sh -> ok_index ix sh -> (length (index_items ix) <= length sh)%nat ->
  normalize_index (wrap ix sh) sh = normalize_index ix sh.
Proof.
  intros Hp Hok Hlen. rewrite !normalize_index_ok; auto.
  - cbn [wrap index_items]. now rewrite wrap_items_norm.
  - destruct Hok as [H1 _]. split; [now apply wrap_items_ok|]. right. cbn [wrap index_items].
    now rewrite wrap_items_length.
Qed.

(** Reading and assigning with an index are the same as with its integers reduced
    modulo the sizes, for every array (valid or not) but a Buffer. *)
Theorem C43_integers_wrap : forall h s ix value,
  (forall b, s <> SBuffer b) -> positive (shape_of s) ->
  ok_index ix (shape_of s) -> (length (index_items ix) <= length (shape_of s))%nat ->
  getitem h s (wrap ix (shape_of s)) = getitem h s ix
  /\ setitem h s (wrap ix (shape_of s)) value = setitem h s ix value.
Proof.
  intros h s ix value Hb Hp Hok Hlen. pose proof (normalize_wrap ix (shape_of s) Hp Hok Hlen) as E.
  destruct s; [now contradiction (Hb b)|..];
    cbn [getitem setitem shape_of] in *; unfold strided_getitem; rewrite ?E; split; reflexivity.
Qed.
Print Assumptions C43_integers_wrap.

(** Negative integers count from the end. *)
Theorem C43_negative : forall n k, 0 < n -> - n <= k < 0 -> k mod n = n + k.
Proof.
  intros n k Hn Hk. symmetry. apply Z.mod_unique_pos with (q := -1); lia.
Qed.
Print Assumptions C43_negative.

(** No integer index raises: reading an element succeeds, and so does slicing
    (for arrays other than DM; DM slices are C29). *)
Theorem C43_no_exception : forall h s ix,
  valid h s -> (forall b, s <> SBuffer b) -> positive (shape_of s) -> ok_index ix (shape_of s) ->
  slice_shape ix (shape_of s) = [] \/ plain s ->
  exists it h', getitem h s ix = Ok (it, h').
Proof.
  intros h s ix [f Hr] Hb Hp Hok D.
  assert (D' : slice_shape ix (shape_of s) = [] \/ (slice_shape ix (shape_of s) <> [] /\ plain s)).
  { destruct (slice_shape ix (shape_of s)) eqn:E; [now left|right]. split; [discriminate|].
    destruct D as [D|D]; [discriminate|exact D]. }
  destruct D' as [D'|[D' Hpl]].
  - eexists _, _. apply (getitem_element s h f ix); auto. intros b ->. now contradiction (Hb b).
  - destruct (slice_plain s h f ix Hr Hpl Hp Hok D') as (s' & h' & E & _). eauto.
Qed.
Print Assumptions C43_no_exception.

(** s[7, -5] on a 2 x 2 array is s[1, 1]. *)
Example C43_case : forall c, In c [CStrided; CCOO; CFlatCOO; CCSR; CDM] ->
  ('(s, h) <- fromobject c [] (SrcSeq nested_2x2) fo_default ;; get_elem h s [7; -5]) = Ok (VInt 4).
Proof. intros c [<-|[<-|[<-|[<-|[<-|[]]]]]]; vm_compute; reflexivity. Qed.

(** ** C44 *)

Definition window (i j : Z) : pyindex := XItem (ISlice (Sl (Some i) (Some j) None)).
Definition at_ (k : Z) : pyindex := XItem (IInt k).

(** Reads: position offset + k of the list, IndexError past its end. *)
Theorem C44_reads : forall h b l k, nth_error h (baddr b) = Some l -> 0 <= boff b + k ->
  (boff b + k < zlen l -> exists v, nth_error l (Z.to_nat (boff b + k)) = Some v
     /\ getitem h (SBuffer b) (at_ k) = Ok (IVal v, h))
  /\ (zlen l <= boff b + k -> getitem h (SBuffer b) (at_ k) = Raise IndexError).
Proof.
  intros h b l k Hl Hk. unfold at_. cbn [getitem]. unfold buffer_getitem, buf_get. cbn [buf_complete_index bind].
  rewrite (cell_ok _ _ _ Hl). cbn [bind]. unfold pyget, zlen in *.
  replace (boff b + k <? 0) with false by lia. replace (boff b + k <? 0) with false by lia. split.
  - intros H. destruct (nth_error l (Z.to_nat (boff b + k))) as [v|] eqn:E.
    + exists v. split; reflexivity.
    + apply nth_error_None in E. lia.
  - intros H. destruct (nth_error l (Z.to_nat (boff b + k))) as [v|] eqn:E; [|reflexivity].
    assert (nth_error l (Z.to_nat (boff b + k)) <> None) by congruence.
    apply nth_error_Some in H0. lia.
Qed.
Print Assumptions C44_reads.

Lemma buf_window h b l i j : nth_error h (baddr b) = Some l -> 0 <= boff b -> boff b + bsize b <= zlen l ->
  0 <= i -> i < j -> j <= bsize b ->
  getitem h (SBuffer b) (window i j) = Ok (ISto (SBuffer (Buf (j - i) (boff b + i) (baddr b) (bunspec b))), h).
Proof.
  intros Hl Ho He Hi Hij Hj. unfold window. cbn [getitem]. unfold buffer_getitem, buf_slice. cbn [buf_complete_index bind].
  rewrite (cell_ok _ _ _ Hl). cbn [bind sl_start sl_stop sl_step].
  replace ((boff b + i <? 0) || (zlen l <=? boff b + i)) with false by lia.
  replace ((boff b + j <=? 0) || (zlen l <? boff b + j)) with false by lia.
  rewrite reduced_window by lia. cbn [r_step r_start r_stop Z.eqb Pos.eqb negb]. unfold mk_buffer. rewrite (cell_ok _ _ _ Hl). cbn [bind].
  replace (boff b + i + (boff b + j - (boff b + i)) <=? zlen l) with true by lia. cbn [assert_ bind].
  now replace (boff b + j - (boff b + i)) with (j - i) by lia.
Qed.

(** Slices: [b[i:j]] is the window of that range on the same list. *)
Theorem C44_windows : forall h b i j,
  valid h (SBuffer b) -> 0 <= i -> i < j -> j <= bsize b ->
  exists w, getitem h (SBuffer b) (window i j) = Ok (ISto (SBuffer w), h)
    /\ valid h (SBuffer w)
    /\ bsize w = j - i /\ boff w = boff b + i /\ baddr w = baddr b /\ bunspec w = bunspec b
    /\ forall k, 0 <= k < j - i -> getitem h (SBuffer w) (at_ k) = getitem h (SBuffer b) (at_ (i + k)).
Proof.
  intros h b i j [f (vs & (l & Hl & Ho & Hs & He & Hw) & _)] Hi Hij Hj.
  eexists. split; [now apply (buf_window h b l)|]. split; [|cbn [bsize boff baddr bunspec]; repeat split].
  - exists (fun x => nth (Z.to_nat (boff b + i + nth 0 x 0)) l VNone).
    exists (firstn (Z.to_nat (j - i)) (skipn (Z.to_nat (boff b + i)) l)).
    assert (Hz : length (firstn (Z.to_nat (j - i)) (skipn (Z.to_nat (boff b + i)) l)) = Z.to_nat (j - i)).
    { rewrite firstn_length, skipn_length. unfold zlen in *. lia. }
    split.
    + exists l. cbn [baddr boff bsize]. split; [exact Hl|]. split; [lia|]. split; [unfold zlen; rewrite Hz; lia|].
      split; [unfold zlen in *; lia|]. now rewrite Hz.
    + intros x Hx. unfold zlen in Hx. rewrite Hz in Hx. cbn [nth]. rewrite nth_firstn by lia. rewrite nth_skipn.
      f_equal. lia.
  - intros k Hk. unfold at_. cbn [getitem]. unfold buffer_getitem, buf_get. cbn [buf_complete_index bind baddr boff].
    now replace (boff b + i + k) with (boff b + (i + k)) by lia.
Qed.
Print Assumptions C44_windows.

(** An empty range inside the data gives an empty window on the same list. *)
Theorem C44_empty_windows : forall h b l i,
  nth_error h (baddr b) = Some l -> 0 < boff b + i -> boff b + i < zlen l ->
  exists w, getitem h (SBuffer b) (window i i) = Ok (ISto (SBuffer w), h)
    /\ bsize w = 0 /\ baddr w = baddr b /\ bunspec w = bunspec b.
Proof.
  intros h b l i Hl H1 H2. unfold window. cbn [getitem]. unfold buffer_getitem, buf_slice. cbn [buf_complete_index bind].
  rewrite (cell_ok _ _ _ Hl). cbn [bind sl_start sl_stop sl_step].
  replace ((boff b + i <? 0) || (zlen l <=? boff b + i)) with false by lia.
  replace ((boff b + i <=? 0) || (zlen l <? boff b + i)) with false by lia.
  assert (Er : reduced (Sl (Some (boff b + i)) (Some (boff b + i)) None) (zlen l) = RSl 0 0 1).
  { apply reduced_empty_iff; [unfold zlen; lia|discriminate|]. apply selected_nil_count; [discriminate|].
    unfold sp_count, sp_start, sp_stop, sp_step, sp_adjust. cbn [sl_start sl_stop sl_step].
    repeat match goal with |- context [if ?c then _ else _] => destruct c eqn:?; try lia end. }
  rewrite Er. cbn [r_step r_start r_stop Z.eqb Pos.eqb negb]. unfold mk_buffer. rewrite (cell_ok _ _ _ Hl). cbn [bind].
  replace (0 + (0 - 0) <=? zlen l) with true by (unfold zlen; lia). cbn [assert_ bind].
  eexists. repeat split.
Qed.
Print Assumptions C44_empty_windows.

(** The corner cases left out raise: the empty range at the start of the list,
    and any range starting at its end. *)
Theorem C44_corner_cases : forall h b l,
  nth_error h (baddr b) = Some l ->
  (boff b = 0 -> getitem h (SBuffer b) (window 0 0) = Raise IndexError)
  /\ (boff b + bsize b = zlen l -> 0 <= boff b -> 0 <= bsize b ->
      getitem h (SBuffer b) (window (bsize b) (bsize b)) = Raise IndexError).
Proof.
  intros h b l Hl. unfold window. cbn [getitem]. unfold buffer_getitem, buf_slice. cbn [buf_complete_index bind].
  rewrite (cell_ok _ _ _ Hl). cbn [bind sl_start sl_stop sl_step]. split.
  - intros ->. destruct ((0 + 0 <? 0) || (zlen l <=? 0 + 0)); [reflexivity|]. cbn. reflexivity.
  - intros H H1 H2. replace ((boff b + bsize b <? 0) || (zlen l <=? boff b + bsize b)) with true by lia. reflexivity.
Qed.
Print Assumptions C44_corner_cases.

(** Windows compose: b[i:j][k:m] = b[i+k:i+m]. *)
Theorem C44_windows_compose : forall h b i j k m w w',
  valid h (SBuffer b) -> 0 <= i -> i < j -> j <= bsize b -> 0 <= k -> k < m -> m <= j - i ->
  getitem h (SBuffer b) (window i j) = Ok (ISto (SBuffer w), h) ->
  getitem h (SBuffer w) (window k m) = Ok (ISto (SBuffer w'), h) ->
  getitem h (SBuffer b) (window (i + k) (i + m)) = Ok (ISto (SBuffer w'), h).
Proof.
  intros h b i j k m w w' [f (vs & (l & Hl & Ho & Hs & He & Hw) & _)] Hi Hij Hj Hk Hkm Hm E1 E2.
  rewrite (buf_window h b l) in E1 by assumption. injection E1 as <-.
  rewrite (buf_window h _ l) in E2 by (cbn [baddr boff bsize]; auto; lia). injection E2 as <-.
  rewrite (buf_window h b l) by (auto; lia). cbn [boff baddr bunspec]. do 4 f_equal. f_equal; lia.
Qed.
Print Assumptions C44_windows_compose.

(** A write through one window on a list is seen by every window on it, and
    nothing else changes. *)
Theorem C44_writes : forall h b l k v,
  nth_error h (baddr b) = Some l -> 0 <= boff b + k < zlen l ->
  exists h', setitem h (SBuffer b) (at_ k) (SrcSeq v) = (h', Ok tt)
    /\ forall w m, baddr w = baddr b -> 0 <= boff w + m < zlen l ->
         (boff w + m = boff b + k -> getitem h' (SBuffer w) (at_ m) = Ok (IVal v, h'))
         /\ (boff w + m <> boff b + k -> exists x, getitem h (SBuffer w) (at_ m) = Ok (IVal x, h)
               /\ getitem h' (SBuffer w) (at_ m) = Ok (IVal x, h')).
Proof.
  intros h b l k v Hl Hk. unfold at_. cbn [setitem]. unfold buffer_setitem, buf_write, buf_set. cbn [buf_complete_index].
  rewrite (cell_ok _ _ _ Hl). cbn [bind]. rewrite pyset_ok by exact Hk. cbn [bind].
  eexists. split; [reflexivity|]. intros w m Ew Hm. set (l' := set_nth _ v l).
  assert (Hl' : nth_error (set_nth (baddr b) l' h) (baddr w) = Some l').
  { rewrite Ew. apply set_nth_error_same, nth_error_Some. congruence. }
  assert (Hz : zlen l' = zlen l) by (unfold zlen, l'; now rewrite set_nth_length).
  cbn [getitem]. unfold buffer_getitem, buf_get. cbn [buf_complete_index bind].
  rewrite (cell_ok _ _ _ Hl'), Ew, (cell_ok _ _ _ Hl). cbn [bind].
  rewrite !(pyget_ok _ _ VNone) by lia. unfold l'. rewrite set_nth_nth by (unfold zlen in *; lia).
  cbn [bind]. split.
  - intros E. replace (Nat.eqb _ _) with true; [reflexivity|]. symmetry. apply Nat.eqb_eq. lia.
  - intros E. eexists. split; [reflexivity|].
    replace (Nat.eqb _ _) with false; [reflexivity|]. symmetry. apply Nat.eqb_neq. lia.
Qed.
Print Assumptions C44_writes.

(** b = Buffer.fromobject([1, 2, 3]); w = b[1:3]; w[1] = 9; b[2] is 9. *)
Example C44_case :
  ('(b, h) <- fromobject CBuffer [] (SrcSeq list_3) fo_default ;;
   '(w, h1) <- getitems h b [window 1 3] ;;
   let '(h2, r) := setitem h1 w (at_ 1) (SrcSeq (VInt 9)) in
   _ <- r ;; get_elem h2 b [2]) = Ok (VInt 9).
Proof. vm_compute. reflexivity. Qed.

(** C61: fromobject with the arguments shape and get_seq_index.
    C62: assignment to a Strided slice is a loop of element assignments. *)
From Coq Require Import Sorting.Sorted Permutation ZifyBool.
From Verif Require Import Py SliceTools Basics Storage Spec SliceFacts IndexFacts
  CompressFacts ReduceFacts SolverFacts SolveFacts Repr ReprFacts ViewFacts BuildFacts SparseFacts
  ConvFacts FromFacts DMFacts ReadFacts MapFacts ChainFacts WriteFacts EqFacts PropRead.

(** * C61 *)

(** The source has the element [x] at index [j]. *)
Definition source_elem (h : heap) (src : source) (j : list Z) (x : pyval) : Prop :=
  match src with
  | SrcSeq v => nested_at v j = Some x
  | SrcSto s => j <> [] /\ get_elem h s j = Ok x
  end.

(** get_seq_index maps [i] to [j]; the default maps every index to itself. *)
Definition maps_to (gsi : option (list Z -> res (list Z))) (i j : list Z) : Prop :=
  match gsi with None => j = i | Some f => f i = Ok j end.

(** The array made from [src]: element [i] is [elem i], the unspecified value
    [su] of the source being replaced by [u]. *)
Definition gathered (sh : list Z) (su u : pyval) (elem : list Z -> pyval) (h : heap) (s : storage) : Prop :=
  shape_of s = sh /\ unspecified_of s = u
  /\ forall i, in_box i sh ->
       (elem i = su -> get_elem h s i = Ok u) /\ (elem i <> su -> get_elem h s i = Ok (elem i)).

Lemma seq_value_at v j x : nested_at v j = Some x -> seq_value v j = Ok x.
Proof.
  assert (G : forall j v, nested_at v j = Some x -> seq_get v j = Ok x).
  { clear. induction j as [|y j IH]; intros v H; cbn in H |- *; [now injection H as ->|].
    destruct v as [| | |l]; try discriminate. destruct (y <? 0) eqn:Ey; [discriminate|].
    destruct (nth_error l (Z.to_nat y)) as [w|] eqn:Ew; [|discriminate].
    assert (Hy : 0 <= y < zlen l).
    { assert (Z.to_nat y < length l)%nat by (apply nth_error_Some; congruence). unfold zlen. lia. }
    assert (E : pyget l y = Ok w).
    { rewrite (pyget_ok l y VNone) by exact Hy. f_equal. now apply nth_error_nth. }
    rewrite E. cbn [bind]. now apply IH. }
  intros H. unfold seq_value. destruct j as [|y j]; [now injection H as ->|].
  pose proof H as H0. cbn in H0. destruct v; try discriminate. now apply G.
Qed.

Lemma source_elem_value h src j x : source_elem h src j x -> get_value h src j = Ok x.
Proof.
  destruct src as [v|s]; cbn [source_elem get_value]; [apply seq_value_at|]. intros [H1 H2]. now destruct j.
Qed.

Lemma gather_reads h src sh gsi u elem : nonneg sh ->
  (forall i, in_box i sh -> exists j, maps_to gsi i j /\ source_elem h src j (elem i)) ->
  reads h src (FO (Some sh) gsi u) sh elem.
Proof.
  intros Hn H. split; [reflexivity|]. split; [exact Hn|]. intros i Hi. destruct (H i Hi) as (j & Hj & Hx).
  unfold fo_get. cbn [fo_gsi]. apply source_elem_value in Hx. unfold maps_to in Hj. destruct gsi as [f|].
  - rewrite Hj. exact Hx.
  - subst j. exact Hx.
Qed.

Lemma repr_gathered h s sh su u elem : shape_of s = sh -> unspecified_of s = u ->
  repr h s (fun i => conv_value su u (elem i)) -> gathered sh su u elem h s.
Proof.
  intros E1 E2 Hr. split; [exact E1|]. split; [exact E2|]. intros i Hi.
  rewrite (repr_get h s _ i Hr) by now rewrite E1.
  destruct (conv_cases su u (elem i) _ eq_refl) as [C1 C2]. split; intros H; f_equal; auto.
Qed.

Lemma gather_specified sh su u elem :
  (exists i, in_box i sh /\ elem i <> su /\ elem i <> u) ->
  some_specified sh u (fun i => conv_value su u (elem i)).
Proof. intros (i & Hi & N1 & N2). exists i. split; [exact Hi|]. now apply conv_differs. Qed.

Theorem C61_gather_dm : forall c h src sh gsi u dimensions partitioning elem,
  positive sh -> mapping_ok (zlen sh) dimensions partitioning ->
  dm_rank_ok c (n_groups c (zlen sh) partitioning) ->
  (forall i, in_box i sh -> exists j, maps_to gsi i j /\ source_elem h src j (elem i)) ->
  let su := get_unspecified src in
  let u' := chosen su u in
  (c = CCSR -> exists i, in_box i sh /\ elem i <> su /\ elem i <> u') ->
  exists rdims rsh rst ro d h',
    dm_fromobject h src (FO (Some sh) gsi u) dimensions partitioning c = Ok (SDM sh rdims rsh rst ro d, h')
    /\ is_class c d /\ valid h' (SDM sh rdims rsh rst ro d) /\ extends h h'
    /\ gathered sh su u' elem h' (SDM sh rdims rsh rst ro d).
Proof.
  intros c h src sh gsi u dimensions partitioning elem Hp [Hn Hd Hpart] Hc Helem su u' Hsp.
  assert (Hnn : nonneg sh) by (eapply Forall_impl; [|exact Hp]; cbn; intros; lia).
  pose proof (gather_reads h src sh gsi u elem Hnn Helem) as Hreads.
  pose proof (dm_args_strict (dm_is_buffer c) _ _ _ Hn Hd Hpart) as Ha.
  destruct (dm_fromobject_ok c h src (FO (Some sh) gsi u) dimensions partitioning sh elem Hreads Hp Ha)
    as (d & h' & E1 & E2 & E3 & E4 & E5 & E6 & E7 & E8).
  { apply (dm_class_ok_intro c sh dimensions partitioning u'
             (fo_value src (FO (Some sh) gsi u) elem)); auto.
    intros Ec. exact (gather_specified sh su u' elem (Hsp Ec)). }
  eexists _, _, _, _, d, h'. split; [exact E1|]. split; [exact E7|].
  split; [eexists; exact E6|]. split; [exact E4|].
  apply repr_gathered; [reflexivity|exact E3|exact E6].
Qed.

Theorem C61_gather : forall c h src sh gsi u elem,
  nonneg sh -> class_rank c sh ->
  (forall i, in_box i sh -> exists j, maps_to gsi i j /\ source_elem h src j (elem i)) ->
  let su := get_unspecified src in
  let u' := chosen su u in
  (c = CCSR -> exists i, in_box i sh /\ elem i <> su /\ elem i <> u') ->
  exists s h', fromobject c h src (FO (Some sh) gsi u) = Ok (s, h')
    /\ is_class c s /\ valid h' s /\ extends h h' /\ gathered sh su u' elem h' s.
Proof.
  intros c h src sh gsi u elem Hnn Hc Helem su u' Hsp.
  assert (D : c = CDM \/ c <> CDM) by (destruct c; (left; reflexivity) || (right; discriminate)).
  destruct D as [->|D].
  - destruct Hc as [Hne Hp].
    destruct (C61_gather_dm CStrided h src sh gsi u None None elem Hp) as (a1 & a2 & a3 & a4 & d & h' & E1 & _ & E2 & E3 & E4).
    + constructor; try discriminate. destruct sh; [congruence|unfold zlen; cbn; lia].
    + exact I.
    + exact Helem.
    + discriminate.
    + eexists _, h'. split; [exact E1|]. split; [exact I|]. split; [exact E2|]. split; [exact E3|exact E4].
  - pose proof (gather_reads h src sh gsi u elem Hnn Helem) as Hreads.
    assert (Hck : class_ok c sh u' (fo_value src (FO (Some sh) gsi u) elem)).
    { destruct c; cbn [class_rank class_ok] in *; auto; try congruence. split; [exact Hc|].
      exact (gather_specified sh su u' elem (Hsp eq_refl)). }
    assert (Hns : no_shortcut c src (FO (Some sh) gsi u)) by (unfold no_shortcut; destruct src; exact I).
    destruct (build_class c h src (FO (Some sh) gsi u) sh elem Hns Hreads Hck)
      as (s & h' & E1 & E2 & E3 & E4 & E5 & E6 & E7 & E8).
    exists s, h'. split; [destruct c; try exact E1; congruence|]. split; [exact E2|].
    split; [eexists; exact E7|]. split; [exact E5|].
    apply repr_gathered; [exact E3|exact E4|exact E7].
Qed.
Print Assumptions C61_gather_dm.
Print Assumptions C61_gather.

(** The transpose of a 2 x 3 array as a CSR, and a DM broadcast of its first row. *)
Example C61_case :
  ('(s, h) <- fromobject CStrided [] (SrcSeq nested_2x3) fo_default ;;
   '(t, h1) <- fromobject CCSR h (SrcSto s) (FO (Some [3; 2]) (Some (fun i => Ok (rev i))) None) ;;
   x <- get_elem h1 t [2; 0] ;; y <- get_elem h1 t [2; 1] ;;
   '(d, h2) <- dm_fromobject h1 (SrcSto s) (FO (Some [4; 3]) (Some (fun i => Ok [0; nth 1 i 0])) (Some (VInt 9)))
                 (Some [1; 0]) (Some [1]) CCOO ;;
   z <- get_elem h2 d [3; 1] ;; w <- get_elem h2 d [3; 2] ;; Ok (x, y, z, w)) = Ok (VInt 3, VInt 0, VInt 9, VInt 3).
Proof. vm_compute. reflexivity. Qed.

(** * C62 *)

(** [for j in js: s[index(j)] = get_value(value, j)] *)
Fixpoint assign_each (h : heap) (s : storage) (value : source) (index : list Z -> list Z)
    (js : list (list Z)) : outcome :=
  match js with
  | [] => (h, Ok tt)
  | j :: r =>
      match get_value h value j with
      | Raise e => (h, Raise e)
      | Ok x => match setitem h s (int_tuple (index j)) (SrcSeq x) with
                | (h', Ok _) => assign_each h' s value index r
                | (h', Raise e) => (h', Raise e)
                end
      end
  end.

Lemma strided_setitem_loop h t ix value :
  length (sstrides t) = length (sshape t) -> positive (sshape t) -> ok_index ix (sshape t) ->
  setitem h (SStrided t) ix value
  = write_loop (buf_write (sdata t)) value
      (map (fun j => (j, zdot (source_index ix (sshape t) j) (sstrides t)))
           (cart (slice_shape ix (sshape t)))) h.
Proof.
  intros Hst Hp Hok. pose proof Hok as [Hitems _]. apply strided_setitem_run.
  assert (Hn : normal_index (norm_items (index_items ix) (sshape t)) (sshape t)) by now apply norm_items_normal.
  assert (Es : n_shape (norm_items (index_items ix) (sshape t)) (sshape t) = slice_shape ix (sshape t))
    by now apply norm_items_shape.
  rewrite normalize_index_ok by assumption. cbn [bind].
  rewrite index_strided_ok by assumption. cbn [bind]. rewrite Z.add_0_l.
  unfold strided_slice_iad. rewrite Es. apply mapM_ok. intros j Hj. apply In_cart in Hj.
  rewrite get_position_ok; [|now apply in_box_len|].
  2:{ rewrite <- Es. now apply n_strides_length. }
  cbn [bind]. do 2 f_equal. unfold source_index. rewrite <- norm_items_source by assumption.
  apply n_offset_dot; [exact Hn|exact Hst|now rewrite Es].
Qed.

Lemma strided_setitem_element h t i v :
  length (sstrides t) = length (sshape t) -> positive (sshape t) -> in_box i (sshape t) ->
  setitem h (SStrided t) (int_tuple i) (SrcSeq v) = buf_write (sdata t) h (zdot i (sstrides t)) v.
Proof.
  intros Hst Hp Hi. pose proof (in_box_len _ _ Hi) as Hl.
  rewrite strided_setitem_loop; [|exact Hst|exact Hp|now apply int_tuple_ok].
  rewrite int_tuple_shape by exact Hl. cbn [cart map write_loop get_value seq_value].
  rewrite int_tuple_source by exact Hi. destruct (buf_write _ _ _ _) as [h' [[]|e]]; reflexivity.
Qed.

(** The value may be a view of the array itself, the strides may make elements
    of the array share positions, and the loop may stop with an exception. *)
Theorem C62_assignment_is_a_loop : forall h t ix value js,
  length (sstrides t) = length (sshape t) -> positive (sshape t) -> ok_index ix (sshape t) ->
  (forall j, In j js <-> in_box j (slice_shape ix (sshape t))) -> StronglySorted row_major_lt js ->
  setitem h (SStrided t) ix value
  = assign_each h (SStrided t) value (source_index ix (sshape t)) js.
Proof.
  intros h t ix value js Hst Hp Hok Hin Hso. rewrite strided_setitem_loop by assumption.
  assert (js = cart (slice_shape ix (sshape t))) as ->.
  { apply sorted_unique; [exact Hso|apply cart_sorted|]. intros j. rewrite In_cart. apply Hin. }
  assert (G : forall l, Forall (fun j => in_box j (slice_shape ix (sshape t))) l -> forall h,
    write_loop (buf_write (sdata t)) value
      (map (fun j => (j, zdot (source_index ix (sshape t) j) (sstrides t))) l) h
    = assign_each h (SStrided t) value (source_index ix (sshape t)) l).
  { induction 1 as [|j l Hj H IH]; intros h0; [reflexivity|]. cbn [map write_loop assign_each].
    destruct (get_value h0 value j) as [x|e]; [|reflexivity].
    rewrite strided_setitem_element; [|exact Hst|exact Hp|now apply source_index_in_box].
    destruct (buf_write _ _ _ _) as [h1 [[]|e]]; [apply IH|reflexivity]. }
  apply G. apply Forall_forall. intros j Hj. now apply In_cart.
Qed.
Print Assumptions C62_assignment_is_a_loop.

(** a[1:] = a[:-1] copies the first element over the whole array. *)
Example C62_case :
  (let '(r, h') := match fromobject CStrided [] (SrcSeq (VSeq [VInt 1; VInt 2; VInt 3; VInt 4])) fo_default with
     | Ok (s, h) => match getitems h s [XItem (ISlice (Sl None (Some (-1)) None))] with
        | Ok (v, h1) => let '(h2, o) := setitem h1 s (XItem (ISlice (Sl (Some 1) None None))) (SrcSto v) in (Some (s, o), h2)
        | _ => (None, []) end
     | _ => (None, []) end in
   match r with Some (s, o) => Some (o, mapM (fun k => get_elem h' s [k]) [0; 1; 2; 3]) | None => None end)
  = Some (Ok tt, Ok [VInt 1; VInt 1; VInt 1; VInt 1]).
Proof. vm_compute. reflexivity. Qed.

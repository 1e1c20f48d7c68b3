(** C47: exactly which nested lists fromobject accepts, rectangular or not. *)
From Coq Require Import Sorting.Sorted Permutation ZifyBool.
From Verif Require Import Py SliceTools Basics Storage Spec SliceFacts IndexFacts
  CompressFacts ReduceFacts SolverFacts SolveFacts Repr ReprFacts ViewFacts BuildFacts SparseFacts
  ConvFacts FromFacts DMFacts ReadFacts MapFacts ChainFacts WriteFacts EffectFacts PureFacts AliasFacts
  PropRead PropWrite PropFail PropEdge PropMore.

(** The lengths met along the first elements of a nested list. *)
Inductive first_lengths : pyval -> list Z -> Prop :=
| fl_none : first_lengths VNone []
| fl_int n : first_lengths (VInt n) []
| fl_atom a : first_lengths (VAtom a) []
| fl_empty : first_lengths (VSeq []) [0]
| fl_list x l sh : first_lengths x sh -> first_lengths (VSeq (x :: l)) (Z.of_nat (length (x :: l)) :: sh).

Lemma first_lengths_shape v sh : first_lengths v sh -> seq_shape v = sh.
Proof. intros H. induction H; cbn [seq_shape]; try reflexivity. now rewrite IHfirst_lengths. Qed.

Lemma seq_shape_nonneg v : Forall (fun n => 0 <= n) (seq_shape v).
Proof.
  revert v. fix F 1. intros [| | |[|x l]]; cbn [seq_shape]; try constructor; try lia; [constructor|apply zlen_nonneg|apply F].
Qed.

Lemma complete_reads h v u : (forall i, in_box i (seq_shape v) -> nested_at v i <> None) ->
  reads h (SrcSeq v) (fo_unspecified u) (seq_shape v) (nested_elem v).
Proof.
  intros H. unfold reads, fo_get_shape, fo_get, fo_unspecified. cbn [fo_shape fo_gsi].
  split; [reflexivity|]. split; [apply seq_shape_nonneg|]. intros i Hi. cbn [get_value].
  unfold nested_elem. specialize (H i Hi). destruct (nested_at v i) as [x|] eqn:E; [|congruence].
  now apply seq_value_at.
Qed.

Lemma missing_value h v u i : in_box i (seq_shape v) -> nested_at v i = None ->
  exists e, fo_get h (SrcSeq v) (fo_unspecified u) i = Raise e.
Proof.
  intros Hi Hn. unfold fo_get, fo_unspecified. cbn [fo_gsi get_value].
  destruct (nested_at_none v i (in_box_nonneg _ _ Hi) Hn) as (e & E & _). eauto.
Qed.

Lemma missing_why h v u i e : in_box i (seq_shape v) -> fo_get h (SrcSeq v) (fo_unspecified u) i = Raise e -> lacks v i e.
Proof.
  intros Hi. unfold fo_get, fo_unspecified. cbn [fo_gsi get_value]. intros E. destruct (nested_at v i) as [x|] eqn:Hn.
  - apply seq_value_at in Hn. congruence.
  - destruct (nested_at_none v i (in_box_nonneg _ _ Hi) Hn) as (e' & E' & L). congruence.
Qed.

Lemma collect_raises get su u idxs i e : In i idxs -> get i = Raise e ->
  exists e' i', collect get su u idxs = Raise e' /\ In i' idxs /\ get i' = Raise e'.
Proof.
  induction idxs as [|j r IH]; intros Hin He; [contradiction|]. cbn [collect].
  destruct (get j) as [x|e'] eqn:Ej; cbn [bind]; [|exists e', j; split; [reflexivity|split; [now left|exact Ej]]].
  destruct Hin as [->|Hin]; [congruence|]. destruct (IH Hin He) as (e' & i' & E & Hi' & Ei'). rewrite E. cbn [bind].
  exists e', i'. split; [reflexivity|]. split; [now right|exact Ei'].
Qed.

(** If the list has an element for every index within the lengths met along its
    first elements, it is accepted and the array has that shape and those
    elements: what lies beyond is dropped.  Otherwise fromobject raises the exception of
    one of the indices without an element ([lacks]). *)
Theorem C47_accepted_exactly_partial : forall c h v sh u,
  first_lengths v sh -> class_rank c sh ->
  let u' := chosen VNone u in
  (c = CCSR -> exists i x, in_box i sh /\ nested_at v i = Some x /\ x <> VNone /\ x <> u') ->
  ((forall i, in_box i sh -> nested_at v i <> None) ->
   exists s h', fromobject c h (SrcSeq v) (fo_unspecified u) = Ok (s, h')
    /\ is_class c s /\ shape_of s = sh /\ unspecified_of s = u' /\ valid h' s
    /\ forall i, in_box i sh -> exists x, nested_at v i = Some x
         /\ (x = VNone -> get_elem h' s i = Ok u')
         /\ (x <> VNone -> get_elem h' s i = Ok x))
  /\ ((exists i, in_box i sh /\ nested_at v i = None) ->
   exists e i, fromobject c h (SrcSeq v) (fo_unspecified u) = Raise e /\ in_box i sh /\ lacks v i e).
Proof.
  intros c h v sh u Hfl Hc u' Hsp. apply first_lengths_shape in Hfl. subst sh. set (sh := seq_shape v) in *.
  split.
  - intros Hall. pose proof (complete_reads h v u Hall) as Hreads.
    assert (Hspec : c = CCSR -> some_specified sh u' (fo_value (SrcSeq v) (fo_unspecified u) (nested_elem v))).
    { intros Ec. destruct (Hsp Ec) as (i & x & Hi & Hx & H1 & H2). exists i. split; [exact Hi|].
      unfold fo_value, nested_elem. rewrite Hx. now apply conv_differs. }
    assert (G : exists s h', fromobject c h (SrcSeq v) (fo_unspecified u) = Ok (s, h')
      /\ is_class c s /\ shape_of s = sh /\ unspecified_of s = u'
      /\ repr h' s (fo_value (SrcSeq v) (fo_unspecified u) (nested_elem v))).
    { assert (D : c = CDM \/ c <> CDM) by (destruct c; (left; reflexivity) || (right; discriminate)).
      destruct D as [->|D].
      - destruct Hc as [Hne Hp]. assert (Hn : 0 < zlen sh) by (destruct sh; [congruence|unfold zlen; cbn; lia]).
        destruct (dm_fromobject_ok CStrided h (SrcSeq v) (fo_unspecified u) None None sh (nested_elem v) Hreads Hp
                    (dm_args_default _ Hn)) as (d & h' & E1 & E2 & E3 & E4 & E5 & E6 & E7); [exact I|].
        eexists _, h'. split; [exact E1|]. split; [exact I|]. split; [reflexivity|]. split; [exact E3|exact E6].
      - assert (Hck : class_ok c sh u' (fo_value (SrcSeq v) (fo_unspecified u) (nested_elem v))).
        { destruct c; cbn [class_rank class_ok] in *; auto; congruence. }
        destruct (build_class c h (SrcSeq v) (fo_unspecified u) sh (nested_elem v) I Hreads Hck)
          as (s & h' & E1 & E2 & E3 & E4 & E5 & E6 & E7 & E8).
        exists s, h'. split; [destruct c; try exact E1; congruence|]. auto. }
    destruct G as (s & h' & E1 & E2 & E3 & E4 & E5). exists s, h'.
    split; [exact E1|]. split; [exact E2|]. split; [exact E3|]. split; [exact E4|].
    split; [now exists (fo_value (SrcSeq v) (fo_unspecified u) (nested_elem v))|].
    intros i Hi. exists (nested_elem v i).
    split; [unfold nested_elem; specialize (Hall i Hi); now destruct (nested_at v i)|].
    rewrite (repr_get h' s _ i E5) by now rewrite E3.
    destruct (conv_cases VNone u' (nested_elem v i) _ eq_refl) as [C1 C2].
    split; intros H; f_equal; [now apply C1|now apply C2].
  - intros (i & Hi & Hn). destruct (missing_value h v u i Hi Hn) as [e He].
    assert (Hcol : forall su w, exists e' i', collect (fo_get h (SrcSeq v) (fo_unspecified u)) su w (cart sh) = Raise e'
        /\ in_box i' sh /\ lacks v i' e').
    { intros su w. destruct (collect_raises (fo_get h (SrcSeq v) (fo_unspecified u)) su w (cart sh) i e) as (e' & i' & E & Hi' & Ei');
        [now apply In_cart|exact He|]. apply In_cart in Hi'. exists e', i'. split; [exact E|]. split; [exact Hi'|].
      now apply (missing_why h v u). }
    destruct c; cbn [fromobject flat_fromobject class_rank] in *; try contradiction.
    + unfold buffer_fromobject, buffer_build. cbn [get_unspecified]. change (fo_get_shape (SrcSeq v) (fo_unspecified u)) with sh.
      edestruct Hcol as (e' & i' & E' & L). rewrite E'. cbn [bind]. eauto.
    + unfold strided_fromobject, strided_build, buffer_build. change (fo_get_shape (SrcSeq v) (fo_unspecified u)) with sh.
      edestruct Hcol as (e' & i' & E' & L). rewrite E'. cbn [bind]. eauto.
    + unfold coo_fromobject, coo_build. change (fo_get_shape (SrcSeq v) (fo_unspecified u)) with sh.
      edestruct Hcol as (e' & i' & E' & L). rewrite E'. cbn [bind]. eauto.
    + unfold flatcoo_fromobject, flatcoo_build. change (fo_get_shape (SrcSeq v) (fo_unspecified u)) with sh.
      edestruct Hcol as (e' & i' & E' & L). rewrite E'. cbn [bind]. eauto.
    + unfold csr_fromobject, coo_fromobject, coo_build. change (fo_get_shape (SrcSeq v) (fo_unspecified u)) with sh.
      edestruct Hcol as (e' & i' & E' & L). rewrite E'. cbn [bind]. eauto.
    + destruct Hc as [Hne Hp]. cbn [dm_fromobject]. unfold dm_fromobject_gen.
      change (fo_get_shape (SrcSeq v) (fo_unspecified u)) with sh.
      assert (Hz : 0 < zlen sh) by (destruct sh; [congruence|unfold zlen; cbn; lia]).
      destruct (dm_args_default _ Hz) as [Hdims Hsorted Hrange Hcount Hdist].
      fold (dm_dims (zlen sh) None). fold (dm_part false (zlen sh) None).
      set (part := dm_part false (zlen sh) None) in *.
      unfold assert_. rewrite (proj2 (is_sorted_Sorted part) Hsorted).
      assert (F1 : forallb (fun p => 0 <? p) part = true).
      { apply forallb_forall. intros p Hin. rewrite Forall_forall in Hrange. specialize (Hrange p Hin). lia. }
      assert (F2 : forallb (fun p => p <? zlen sh) part = true).
      { apply forallb_forall. intros p Hin. rewrite Forall_forall in Hrange. specialize (Hrange p Hin). lia. }
      rewrite F1, F2. replace (match part with [] => true | _ :: _ => true && true && true end) with true
        by (destruct part; reflexivity). cbn [bind].
      replace (zlen part + 1 <=? zlen sh) with true by lia. cbn [bind].
      set (rdims := cut (dm_dims (zlen sh) None) ([0] ++ part ++ [zlen sh])).
      rewrite (proj2 (distinct_groups_NoDup [] rdims)) by (split; [exact Hdist|intros ? _ []]). cbn [bind].
      assert (Ec : concat rdims = dm_dims (zlen sh) None).
      { apply concat_cut_partition.
        - unfold zlen at 1. rewrite (Permutation_length Hdims), zseq_length_nat. unfold zlen. lia.
        - split; [exact Hsorted|]. eapply Forall_impl; [|exact Hrange]. cbn. intros; lia. }
      assert (Hperm : Permutation (concat rdims) (zseq (zlen sh))) by now rewrite Ec.
      rewrite make_reduction_ok by now apply perm_axes. cbn [bind]. rewrite map_zero.
      set (gsi := fun rindex => j <- promote_index _ _ _ _ rindex ;; _).
      cbn [flat_fromobject]. unfold strided_fromobject, strided_build, buffer_build. cbn [fo_get_shape fo_shape].
      set (a := FO _ _ _).
      assert (Hin : In (group_index sh rdims i) (cart (group_shape sh rdims))).
      { apply In_cart. apply group_index_in_box, in_box_groups. apply (in_box_gather (zlen sh)); auto. now apply in_box_zlen. }
      assert (Hr : fo_get h (SrcSeq v) a (group_index sh rdims i) = Raise e).
      { unfold fo_get, a. cbn [fo_gsi]. unfold gsi. rewrite (promote_reduce sh rdims i Hperm Hi). cbn [bind]. exact He. }
      destruct (collect_raises _ (get_unspecified (SrcSeq v)) (fo_get_unspec (SrcSeq v) a) _ _ _ Hin Hr)
        as (e' & r' & E' & Hr' & Er').
      change (fo_get_shape (SrcSeq v) a) with (group_shape sh rdims).
      rewrite E'. cbn [bind]. apply In_cart in Hr'. destruct (reduce_promote sh rdims r' Hp Hperm Hr') as (i' & Ei' & Hi' & _).
      exists e', i'. split; [reflexivity|]. split; [exact Hi'|]. apply (missing_why h v u); [exact Hi'|].
      unfold fo_get, a in Er'. cbn [fo_gsi] in Er'. unfold gsi in Er'. rewrite Ei' in Er'. cbn [bind] in Er'. exact Er'.
Qed.
Print Assumptions C47_accepted_exactly_partial.

(** [[1, 2], [3, 4, 5]] and [[1, 2], [3]] *)
Example C47_accepted_case :
  first_lengths ragged [2; 2] /\ class_rank CDM [2; 2]
  /\ (forall i, in_box i [2; 2] -> nested_at ragged i <> None)
  /\ first_lengths (VSeq [VSeq [VInt 1; VInt 2]; VSeq [VInt 3]]) [2; 2]
  /\ in_box [1; 1] [2; 2] /\ nested_at (VSeq [VSeq [VInt 1; VInt 2]; VSeq [VInt 3]]) [1; 1] = None.
Proof.
  split; [apply fl_list, fl_list, fl_int|]. split; [split; [discriminate|repeat constructor]|]. split.
  { intros i Hi. apply In_cart in Hi. vm_compute in Hi. destruct Hi as [<-|[<-|[<-|[<-|[]]]]]; vm_compute; discriminate. }
  split; [apply fl_list, fl_list, fl_int|]. split; [repeat constructor; lia|reflexivity].
Qed.

(** C22-C24, C26-C31, C38, C41, C43: what constructors, conversions, slices and
    copies contain.

    [valid h s] says that [s] satisfies the data structure invariants of its
    class in heap [h] (Repr.v); PropReach.v shows that every storage a program
    builds through the API does.  [get_elem h s i] is [s[i]] for a tuple of
    integers. *)
From Coq Require Import Sorting.Sorted Permutation ZifyBool.
From Verif Require Import Py SliceTools Basics Storage Spec SliceFacts IndexFacts
  CompressFacts ReduceFacts SolverFacts SolveFacts Repr ReprFacts ViewFacts BuildFacts SparseFacts
  ConvFacts FromFacts DMFacts ReadFacts MapFacts ChainFacts.

(** The ranks a class supports. *)
Definition class_rank (c : cls) (sh : list Z) : Prop :=
  match c with
  | CStrided => True
  | CBuffer => length sh = 1%nat
  | CCOO | CFlatCOO => sh <> []
  | CCSR => length sh = 2%nat
  | CDM => sh <> [] /\ positive sh
  | CC2SR => False
  end.

(** The unspecified value in effect. *)
Definition chosen (default : pyval) (u : option pyval) : pyval :=
  match u with None => default | Some x => x end.

Lemma conv_cases su u x y : conv_value su u x = y ->
  (x = su -> y = u) /\ (x <> su -> y = x).
Proof.
  intros <-. unfold conv_value. destruct (veqb x su) eqn:E.
  - apply veqb_eq in E. split; congruence.
  - split; [|reflexivity]. intros ->. rewrite veqb_refl in E. discriminate.
Qed.

Lemma conv_differs su u x : x <> su -> x <> u -> conv_value su u x <> u.
Proof.
  intros H1 H2. unfold conv_value. destruct (veqb x su) eqn:E; [|exact H2]. apply veqb_eq in E. contradiction.
Qed.

Lemma conv_differs_iff su u x : conv_value su u x <> u <-> x <> su /\ x <> u.
Proof.
  split; [|intros [H1 H2]; now apply conv_differs]. unfold conv_value. destruct (veqb x su) eqn:E.
  - congruence.
  - intros H. split; [|exact H]. intros ->. rewrite veqb_refl in E. discriminate.
Qed.

(** ** The reduced arrays of DM *)

(** The number of groups of axes. *)
Definition n_groups (c : cls) (n : Z) (partitioning : option (list Z)) : Z :=
  match partitioning with
  | Some p => zlen p + 1
  | None => if dm_is_buffer c || (n =? 1) then 1 else 2
  end.

(** The storage classes that can hold the reduced array: Buffer needs one group,
    CSR two. *)
Definition dm_rank_ok (c : cls) (groups : Z) : Prop :=
  match c with CBuffer => groups = 1 | CCSR => groups = 2 | CC2SR => False | _ => True end.

Lemma rdims_length c n dimensions partitioning :
  zlen (dm_rdims (dm_is_buffer c) n dimensions partitioning) = n_groups c n partitioning.
Proof.
  unfold dm_rdims, zlen. rewrite cut_length by discriminate. cbn [app length]. rewrite app_length. cbn [length].
  unfold n_groups, dm_part, zlen. destruct partitioning; [lia|].
  destruct (dm_is_buffer c || (n =? 1)); cbn [length]; lia.
Qed.

Lemma dm_class_ok_intro c sh dimensions partitioning u f :
  positive sh -> dm_args (dm_is_buffer c) (zlen sh) dimensions partitioning ->
  dm_rank_ok c (n_groups c (zlen sh) partitioning) ->
  (c = CCSR -> some_specified sh u f) ->
  let rdims := dm_rdims (dm_is_buffer c) (zlen sh) dimensions partitioning in
  dm_class_ok c (group_shape sh rdims) u (fun r => f (promoted sh rdims r)).
Proof.
  intros Hp Ha Hc Hs rdims. pose proof (rdims_length c (zlen sh) dimensions partitioning) as Hl. fold rdims in Hl.
  rewrite <- Hl in Hc.
  assert (Hgl : length (group_shape sh rdims) = length rdims) by apply map_length.
  assert (Ec : concat rdims = dm_dims (zlen sh) dimensions).
  { apply concat_cut_partition.
    - unfold zlen at 1. rewrite (Permutation_length (da_dims _ _ _ _ Ha)), zseq_length_nat. unfold zlen. lia.
    - split; [apply (da_sorted _ _ _ _ Ha)|]. eapply Forall_impl; [|apply (da_range _ _ _ _ Ha)]. cbn. intros; lia. }
  assert (Hperm : Permutation (concat rdims) (zseq (zlen sh))) by (rewrite Ec; apply (da_dims _ _ _ _ Ha)).
  assert (Hne : group_shape sh rdims <> []).
  { intros E. assert (L : length rdims = 0%nat) by (rewrite <- Hgl, E; reflexivity).
    unfold n_groups in Hl. unfold zlen in Hl at 1. rewrite L in Hl.
    destruct partitioning; [pose proof (zlen_nonneg l); lia|].
    destruct (dm_is_buffer c || (zlen sh =? 1)); discriminate. }
  unfold zlen in Hc. destruct c; cbn [dm_class_ok class_ok dm_rank_ok] in *; try contradiction; auto; try lia.
  - split; [lia|]. destruct (Hs eq_refl) as (i & Hi & Hv). exists (group_index sh rdims i). split.
    + apply group_index_in_box, in_box_groups. apply (in_box_gather (zlen sh)); auto. now apply in_box_zlen.
    + unfold promoted. rewrite promote_reduce by assumption. exact Hv.
  - split; [apply group_shape_positive; auto; now apply perm_axes|exact Hne].
Qed.

(** Mappings of [n] axes: a permutation and a strictly increasing partitioning. *)
Record mapping_ok (n : Z) (dimensions partitioning : option (list Z)) : Prop := {
  mo_axes : 0 < n;
  mo_dims : forall d, dimensions = Some d -> Permutation d (zseq n);
  mo_part : forall p, partitioning = Some p -> StronglySorted Z.lt p /\ Forall (fun x => 0 < x < n) p }.

(** ** C22 *)
Theorem C22_fromobject_elements : forall c h v sh u,
  regular sh v -> class_rank c sh ->
  let u' := chosen VNone u in
  (c = CCSR -> exists i x, in_box i sh /\ nested_at v i = Some x /\ x <> VNone /\ x <> u') ->
  exists s h', fromobject c h (SrcSeq v) (fo_unspecified u) = Ok (s, h')
    /\ is_class c s /\ shape_of s = sh /\ unspecified_of s = u' /\ valid h' s
    /\ forall i, in_box i sh -> exists x, nested_at v i = Some x
         /\ (x = VNone -> get_elem h' s i = Ok u')
         /\ (x <> VNone -> get_elem h' s i = Ok x).
Proof.
  intros c h v sh u Hreg Hc u' Hsp.
  assert (Hsrc : source_repr h (SrcSeq v) (nested_elem v)).
  { exists sh. split; [exact Hreg|reflexivity]. }
  pose proof (source_reads h (SrcSeq v) (nested_elem v) u Hsrc) as Hreads.
  cbn [get_shape] in Hreads. rewrite (regular_shape sh v Hreg) in Hreads.
  assert (Hspec : c = CCSR -> some_specified sh u' (fo_value (SrcSeq v) (fo_unspecified u) (nested_elem v))).
  { intros Ec. destruct (Hsp Ec) as (i & x & Hi & Hx & H1 & H2). exists i. split; [exact Hi|].
    unfold fo_value, nested_elem. rewrite Hx. now apply conv_differs. }
  assert (G : exists s h', fromobject c h (SrcSeq v) (fo_unspecified u) = Ok (s, h')
    /\ is_class c s /\ shape_of s = sh /\ unspecified_of s = u'
    /\ repr h' s (fo_value (SrcSeq v) (fo_unspecified u) (nested_elem v))).
  { assert (D : c = CDM \/ c <> CDM) by (destruct c; (left; reflexivity) || (right; discriminate)).
    destruct D as [->|D].
    - destruct Hc as [Hne Hp]. assert (Hn : 0 < zlen sh) by (destruct sh; [congruence|unfold zlen; cbn; lia]).
      destruct (dm_fromobject_ok CStrided h (SrcSeq v) (fo_unspecified u) None None sh (nested_elem v) Hreads Hp
                  (dm_args_default _ Hn)) as (d & h' & E1 & E2 & E3 & E4 & E5 & E6 & E7); [exact I|].
      eexists _, h'. split; [exact E1|]. split; [exact I|]. split; [reflexivity|]. split; [exact E3|exact E6].
    - assert (Hck : class_ok c sh u' (fo_value (SrcSeq v) (fo_unspecified u) (nested_elem v))).
      { destruct c; cbn [class_rank class_ok] in *; auto; congruence. }
      destruct (build_class c h (SrcSeq v) (fo_unspecified u) sh (nested_elem v) I Hreads Hck)
        as (s & h' & E1 & E2 & E3 & E4 & E5 & E6 & E7 & E8).
      exists s, h'. split; [destruct c; try exact E1; congruence|]. auto. }
  destruct G as (s & h' & E1 & E2 & E3 & E4 & E5). exists s, h'.
  split; [exact E1|]. split; [exact E2|]. split; [exact E3|]. split; [exact E4|].
  split; [now exists (fo_value (SrcSeq v) (fo_unspecified u) (nested_elem v))|].
  intros i Hi. exists (nested_elem v i). split; [now apply (regular_get sh)|].
  rewrite (repr_get h' s _ i E5) by now rewrite E3.
  destruct (conv_cases VNone u' (nested_elem v i) _ eq_refl) as [C1 C2].
  split; intros H; f_equal; [now apply C1|now apply C2].
Qed.
Print Assumptions C22_fromobject_elements.

Definition nested_2x3 : pyval :=
  VSeq [VSeq [VInt 1; VNone; VInt 3]; VSeq [VNone; VInt 5; VInt 0]].
Example C22_case : regular [2; 3] nested_2x3
  /\ class_rank CCSR [2; 3]
  /\ (exists i x, in_box i [2; 3] /\ nested_at nested_2x3 i = Some x /\ x <> VNone /\ x <> VInt 0)
  /\ ('(s, h') <- fromobject CCSR [] (SrcSeq nested_2x3) (fo_unspecified (Some (VInt 0))) ;;
      x <- get_elem h' s [1; 1] ;; y <- get_elem h' s [1; 0] ;; Ok (x, y)) = Ok (VInt 5, VInt 0).
Proof.
  split; [|split; [reflexivity|split; [|reflexivity]]].
  - repeat (split || constructor); cbn; discriminate.
  - exists [0; 2], (VInt 3). repeat split; try discriminate. repeat constructor; lia.
Qed.

(** ** C23 *)
Theorem C23_sparse_stores_specified : forall c h v sh u,
  (c = CCOO \/ c = CFlatCOO \/ c = CCSR) ->
  regular sh v -> class_rank c sh ->
  let u' := chosen VNone u in
  (c = CCSR -> exists i x, in_box i sh /\ nested_at v i = Some x /\ x <> VNone /\ x <> u') ->
  exists s h' L, fromobject c h (SrcSeq v) (fo_unspecified u) = Ok (s, h')
    /\ is_class c s
    /\ (forall i x, In (i, x) L <-> in_box i sh /\ nested_at v i = Some x /\ x <> VNone /\ x <> u')
    /\ StronglySorted row_major_lt (map fst L)
    /\ (positive sh -> elements h' s = Ok (map (fun e => (KTup (fst e), snd e)) L))
    /\ size_of s = Ok (zlen L)
    /\ exists b, is_full s = Ok b
       /\ (b = true <-> forall i x, in_box i sh -> nested_at v i = Some x -> x <> VNone /\ x <> u').
Proof.
  intros c h v sh u Hc3 Hreg Hc u' Hsp.
  assert (Hsrc : source_repr h (SrcSeq v) (nested_elem v)).
  { exists sh. split; [exact Hreg|reflexivity]. }
  pose proof (source_reads h (SrcSeq v) (nested_elem v) u Hsrc) as Hreads.
  cbn [get_shape] in Hreads. rewrite (regular_shape sh v Hreg) in Hreads.
  set (f := fo_value (SrcSeq v) (fo_unspecified u) (nested_elem v)).
  assert (Hck : class_ok c sh u' f).
  { destruct Hc3 as [->|[->| ->]]; cbn [class_rank class_ok] in *; auto. split; [exact Hc|].
    destruct (Hsp eq_refl) as (i & x & Hi & Hx & H1 & H2). exists i. split; [exact Hi|].
    unfold f, fo_value, nested_elem. rewrite Hx. now apply conv_differs. }
  destruct (build_class c h (SrcSeq v) (fo_unspecified u) sh (nested_elem v) I Hreads Hck)
    as (s & h' & E1 & E2 & E3 & E4 & E5 & E6 & E7 & E8).
  assert (Hs : is_sparse s) by (destruct Hc3 as [->|[->| ->]], s; try contradiction; exact I).
  specialize (E8 Hs). change (fo_get_unspec (SrcSeq v) (fo_unspecified u)) with u' in E8. fold f in E8.
  set (L := entries_of sh u' f) in *.
  assert (HL : forall i x, In (i, x) L <-> in_box i sh /\ nested_at v i = Some x /\ x <> VNone /\ x <> u').
  { intros i x. unfold L, entries_of, specified. rewrite filter_In, in_map_iff. cbn [snd]. split.
    - intros [(k & Ek & Hk) Hv]. injection Ek as -> Ex. apply In_cart in Hk. split; [exact Hk|].
      destruct (regular_get sh v i Hreg Hk) as [_ Hn].
      assert (Hne : x <> u') by (intros ->; rewrite veqb_refl in Hv; discriminate).
      rewrite <- Ex in Hne. unfold f, fo_value in Hne.
      apply (conv_differs_iff VNone u') in Hne. destruct Hne as [N1 N2].
      assert (x = nested_elem v i).
      { rewrite <- Ex. unfold f, fo_value. destruct (conv_cases VNone u' (nested_elem v i) _ eq_refl) as [_ C2].
        now apply C2. }
      subst x. rewrite H. auto.
    - intros (Hi & Hx & N1 & N2). assert (Ex : nested_elem v i = x) by (unfold nested_elem; now rewrite Hx).
      assert (Ef : f i = x).
      { unfold f, fo_value. destruct (conv_cases VNone u' (nested_elem v i) _ eq_refl) as [_ C2].
        rewrite Ex in C2. rewrite Ex. now apply C2. }
      split; [exists i; rewrite Ef; split; [reflexivity|now apply In_cart]|].
      destruct (veqb x u') eqn:Ev; [|reflexivity]. apply veqb_eq in Ev. contradiction. }
  assert (Hsz : size_of s = Ok (zlen L)).
  { destruct s; try contradiction; cbn [size_of].
    - destruct E8 as (_ & _ & _ & _ & -> & _). reflexivity.
    - destruct E8 as (_ & _ & _ & _ & (l & _ & _ & Hb & _) & _). now rewrite Hb, zlen_map.
    - destruct E8 as (_ & _ & _ & (l & _ & _ & Hb & _) & _). now rewrite Hb, zlen_map. }
  exists s, h', L. split; [destruct Hc3 as [->|[->| ->]]; exact E1|]. split; [exact E2|].
  split; [exact HL|]. split; [apply (entries_ordered h' s L E8)|].
  split; [intros Hp; apply elements_sparse; [exact E8|now rewrite E3]|].
  split; [exact Hsz|]. unfold is_full. rewrite Hsz. cbn [bind]. eexists. split; [reflexivity|].
  rewrite E3. rewrite Z.eqb_eq.
  assert (Hcl : product sh = zlen (cart sh)).
  { destruct Hreads as (_ & Hnn & _). rewrite <- (cart_length sh Hnn). reflexivity. }
  rewrite Hcl. clear - HL Hreg.
  assert (F : forall (A : Type) (p : A -> bool) l, zlen (filter p l) = zlen l <-> forall x, In x l -> p x = true).
  { clear. intros A p l. unfold zlen. assert (H : (length (filter p l) <= length l)%nat).
    { induction l as [|a l IH]; cbn [filter length]; [lia|]. destruct (p a); cbn [length]; lia. }
    split.
    - intros E x. revert x. assert (E' : length (filter p l) = length l) by lia. clear E H.
      induction l as [|a l IH]; intros x []; cbn [filter] in E'.
      + subst a. destruct (p x); [reflexivity|].
        assert (H : (length (filter p l) <= length l)%nat).
        { clear. induction l as [|a l IH]; cbn [filter length]; [lia|]. destruct (p a); cbn [length]; lia. }
        cbn [length] in E'. lia.
      + apply IH; [|assumption].
        assert (H' : (length (filter p l) <= length l)%nat).
        { clear. induction l as [|b l IH]; cbn [filter length]; [lia|]. destruct (p b); cbn [length]; lia. }
        destruct (p a); cbn [length] in E'; lia.
    - intros E. f_equal. f_equal. clear H. induction l as [|a l IH]; [reflexivity|]. cbn [filter].
      rewrite E by now left. f_equal. apply IH. intros x Hx. apply E. now right. }
  assert (Hm : zlen (cart sh) = zlen (map (fun i => (i, f i)) (cart sh))) by now rewrite zlen_map.
  rewrite Hm. unfold L at 1, entries_of, specified. rewrite F. split.
  - intros H i x Hi Hx. specialize (H (i, f i)). rewrite in_map_iff in H.
    specialize (H ltac:(exists i; split; [reflexivity|now apply In_cart])). cbn [snd] in H.
    assert (Hin : In (i, f i) L).
    { unfold L, entries_of, specified. apply filter_In. split; [|exact H]. apply in_map_iff. exists i.
      split; [reflexivity|now apply In_cart]. }
    apply HL in Hin. destruct Hin as (_ & Hx' & N). rewrite Hx in Hx'. injection Hx' as ->. exact N.
  - intros H [i x] Hin. apply in_map_iff in Hin. destruct Hin as (k & Ek & Hk). injection Ek as -> <-.
    apply In_cart in Hk. destruct (regular_get sh v i Hreg Hk) as [_ Hn].
    destruct (H i _ Hk Hn) as [N1 N2].
    assert (Hin : In (i, nested_elem v i) L) by (apply HL; auto).
    unfold L, entries_of, specified in Hin. apply filter_In in Hin. destruct Hin as [Hin Hv].
    apply in_map_iff in Hin. destruct Hin as (k & Ek & _). injection Ek as -> Ef. cbn [snd] in *. now rewrite Ef.
Qed.
Print Assumptions C23_sparse_stores_specified.

Example C23_case :
  ('(s, h') <- fromobject CFlatCOO [] (SrcSeq nested_2x3) (fo_unspecified (Some (VInt 0))) ;; elements h' s)
  = Ok [(KTup [0; 0], VInt 1); (KTup [0; 2], VInt 3); (KTup [1; 1], VInt 5)].
Proof. vm_compute. reflexivity. Qed.

(** ** C24 *)

(** [t] holds the elements of [s], except that those equal to the unspecified
    value of [s] are replaced by [u]. *)
Definition same_elements (h : heap) (s : storage) (h' : heap) (t : storage) (u : pyval) : Prop :=
  shape_of t = shape_of s
  /\ forall i, in_box i (shape_of s) -> exists x, get_elem h s i = Ok x
       /\ (x = unspecified_of s -> get_elem h' t i = Ok u)
       /\ (x <> unspecified_of s -> get_elem h' t i = Ok x).

Definition some_element_stays (h : heap) (s : storage) (u : pyval) : Prop :=
  exists i x, in_box i (shape_of s) /\ get_elem h s i = Ok x /\ x <> unspecified_of s /\ x <> u.

Lemma same_elements_conv h s f h' t u : repr h s f -> shape_of t = shape_of s ->
  repr h' t (fun i => conv_value (unspecified_of s) u (f i)) ->
  same_elements h s h' t u.
Proof.
  intros Hs Hsh Ht. split; [exact Hsh|]. intros i Hi. exists (f i).
  split; [now apply repr_get|]. rewrite (repr_get h' t _ i Ht) by now rewrite Hsh.
  destruct (conv_cases (unspecified_of s) u (f i) _ eq_refl) as [C1 C2].
  split; intros H; f_equal; auto.
Qed.

Lemma stays_specified h s f u : repr h s f -> some_element_stays h s u ->
  some_specified (shape_of s) u (fun i => conv_value (unspecified_of s) u (f i)).
Proof.
  intros Hr (i & x & Hi & Hx & N1 & N2). exists i. split; [exact Hi|].
  rewrite (repr_get h s f i Hr Hi) in Hx. injection Hx as ->. now apply conv_differs.
Qed.

Lemma storage_reads h s f sh u : repr h s f -> shape_of s <> [] -> sh = Some (shape_of s) ->
  reads h (SrcSto s) (FO sh None u) (shape_of s) f.
Proof.
  intros Hr Hne ->. split; [reflexivity|]. split; [eapply repr_nonneg; eassumption|].
  intros i Hi. now apply get_value_repr.
Qed.

Theorem C24_as_DM : forall h s dimensions partitioning c u,
  valid h s -> positive (shape_of s) ->
  mapping_ok (zlen (shape_of s)) dimensions partitioning ->
  dm_rank_ok c (n_groups c (zlen (shape_of s)) partitioning) ->
  let u' := chosen (unspecified_of s) u in
  (c = CCSR -> some_element_stays h s u') ->
  exists t h', as_DM h s dimensions partitioning c u = Ok (t, h')
    /\ is_class CDM t /\ unspecified_of t = u' /\ valid h' t /\ extends h h'
    /\ same_elements h s h' t u'.
Proof.
  intros h s dimensions partitioning c u [f Hr] Hp [Hn Hd Hpart] Hc u' Hst.
  assert (Hne : shape_of s <> []) by (intros E; rewrite E in Hn; discriminate).
  pose proof (dm_args_strict (dm_is_buffer c) _ _ _ Hn Hd Hpart) as Ha.
  pose proof (storage_reads h s f (Some (shape_of s)) u Hr Hne eq_refl) as Hreads.
  destruct (dm_fromobject_ok c h (SrcSto s) (FO (Some (shape_of s)) None u) dimensions partitioning _ f Hreads Hp Ha)
    as (d & h' & E1 & E2 & E3 & E4 & E5 & E6 & E7).
  { apply (dm_class_ok_intro c (shape_of s) dimensions partitioning u'
             (fo_value (SrcSto s) (FO (Some (shape_of s)) None u) f)); auto.
    intros Ec. exact (stays_specified h s f u' Hr (Hst Ec)). }
  eexists _, h'. split; [exact E1|]. split; [exact I|]. split; [exact E3|]. split; [eexists; exact E6|].
  split; [exact E4|]. eapply same_elements_conv; [exact Hr|reflexivity|exact E6].
Qed.

Theorem C24_conversion : forall c h s u,
  valid h s -> positive (shape_of s) -> shape_of s <> [] -> class_rank c (shape_of s) ->
  let u' := chosen (unspecified_of s) u in
  (c = CCSR -> some_element_stays h s u') ->
  exists t h', as_storage c h s u = Ok (t, h')
    /\ is_class c t /\ unspecified_of t = u' /\ valid h' t /\ extends h h'
    /\ same_elements h s h' t u'.
Proof.
  intros c h s u Hv Hp Hne Hc u' Hst.
  assert (D : c = CDM \/ c <> CDM) by (destruct c; (left; reflexivity) || (right; discriminate)).
  destruct D as [->|D].
  - apply (C24_as_DM h s None None CStrided u); auto; [|exact I|discriminate]. constructor; try discriminate.
    destruct (shape_of s); [congruence|unfold zlen; cbn; lia].
  - destruct Hv as [f Hr].
    destruct (fromobject_ok c h (SrcSto s) f u) as (t & h' & E1 & E2 & E3 & E4 & E5 & E6 & E7 & E8).
    + split; assumption.
    + destruct c; cbn [class_rank class_ok get_shape] in *; auto; try congruence. split; [exact Hc|].
      exact (stays_specified h s f u' Hr (Hst eq_refl)).
    + auto.
    + exists t, h'. split; [destruct c; try exact E1; congruence|]. split; [exact E2|]. split; [exact E4|].
      split; [eexists; exact E6|]. split; [exact E5|]. eapply same_elements_conv; [exact Hr|exact E3|exact E6].
Qed.
Print Assumptions C24_as_DM.
Print Assumptions C24_conversion.

(** A reversed, strided view of a 2 x 3 array, converted to CSR with 0 for None. *)
Example C24_case :
  ('(s, h) <- fromobject CStrided [] (SrcSeq nested_2x3) fo_default ;;
   '(v, h1) <- getitems h s [XTuple [INone; ISlice (Sl None None (Some (-2)))]] ;;
   '(t, h2) <- as_storage CCSR h1 v (Some (VInt 0)) ;;
   x <- get_elem h2 t [0; 0] ;; y <- get_elem h2 t [1; 1] ;; e <- elements h2 t ;; Ok (shape_of t, x, y, e))
  = Ok ([2; 2], VInt 3, VInt 0, [(KTup [0; 0], VInt 3); (KTup [0; 1], VInt 1)]).
Proof. vm_compute. reflexivity. Qed.

(** ** C26, C27 *)

(** [t] is the array obtained from [s] by the chain of slices. *)
Definition chain_elements (h : heap) (s : storage) (ixs : list pyindex) (h' : heap) (t : storage) : Prop :=
  shape_of t = chain_shape ixs (shape_of s)
  /\ unspecified_of t = unspecified_of s
  /\ forall j, in_box j (shape_of t) ->
       in_box (chain_source ixs (shape_of s) j) (shape_of s)
       /\ exists x, get_elem h s (chain_source ixs (shape_of s) j) = Ok x /\ get_elem h' t j = Ok x.

Lemma chain_elements_repr h s f ixs h' t : repr h s f -> chain_ok ixs (shape_of s) ->
  shape_of t = chain_shape ixs (shape_of s) -> unspecified_of t = unspecified_of s ->
  repr h' t (fun j => f (chain_source ixs (shape_of s) j)) ->
  chain_elements h s ixs h' t.
Proof.
  intros Hr Hok Hsh Hu Ht. split; [exact Hsh|]. split; [exact Hu|]. intros j Hj.
  assert (Hb : in_box (chain_source ixs (shape_of s) j) (shape_of s)).
  { apply chain_source_in_box; [exact Hok|]. now rewrite <- Hsh. }
  split; [exact Hb|]. eexists. split; [exact (repr_get h s f _ Hr Hb)|]. exact (repr_get h' t _ j Ht Hj).
Qed.

Theorem C26_strided_slices : forall h t ixs,
  valid h (SStrided t) -> chain_ok ixs (sshape t) ->
  exists t', getitems h (SStrided t) ixs = Ok (SStrided t', h)
    /\ valid h (SStrided t')
    /\ chain_elements h (SStrided t) ixs h (SStrided t').
Proof.
  intros h t ixs [f Hr] Hok.
  destruct (getitems_plain ixs (SStrided t) h f Hr I Hok) as (s' & h' & E1 & E2 & E3 & E4 & E5 & E6 & E7 & _).
  destruct (E7 I) as (S1 & -> & _). destruct s'; try contradiction.
  exists s. split; [exact E1|]. split; [eexists; exact E5|]. eapply chain_elements_repr; eassumption.
Qed.
Print Assumptions C26_strided_slices.

Example C26_case :
  chain_ok [XTuple [ISlice (Sl None None (Some (-1))); ISlice (Sl (Some 1) None None)];
            XTuple [INone; IInt (-1)]] [2; 3]
  /\ ('(s, h) <- fromobject CStrided [] (SrcSeq nested_2x3) fo_default ;;
      '(v, h1) <- getitems h s [XTuple [ISlice (Sl None None (Some (-1))); ISlice (Sl (Some 1) None None)];
                               XTuple [INone; IInt (-1)]] ;;
      e <- elements h1 v ;; Ok (shape_of v, e))
     = Ok ([2], [(KTup [0], VInt 0); (KTup [1], VInt 3)]).
Proof.
  split; [|vm_compute; reflexivity]. cbn [chain_ok].
  change (slice_shape (XTuple [ISlice (Sl None None (Some (-1))); ISlice (Sl (Some 1) None None)]) [2; 3]) with [2; 2].
  change (slice_shape (XTuple [INone; IInt (-1)]) [2; 2]) with [2].
  split; [repeat constructor; lia|]. split; [split; [repeat constructor; cbn; lia|right; cbn; lia]|].
  split; [discriminate|]. split; [repeat constructor; lia|].
  split; [split; [repeat constructor; cbn; lia|right; cbn; lia]|]. split; [discriminate|exact I].
Qed.

Theorem C27_sparse_slices : forall h s ixs,
  valid h s -> is_sparse s -> chain_ok ixs (shape_of s) ->
  exists s' h', getitems h s ixs = Ok (s', h')
    /\ is_sparse s' /\ valid h' s' /\ extends h h'
    /\ chain_elements h s ixs h' s'
    /\ (positive (shape_of s') ->
          exists L, elements h' s' = Ok (map (fun e => (KTup (fst e), snd e)) L)
            /\ StronglySorted row_major_lt (map fst L) /\ Forall (fun e => in_box (fst e) (shape_of s')) L).
Proof.
  intros h s ixs [f Hr] Hs Hok.
  assert (Hpl : plain s) by (destruct s; try contradiction; exact I).
  destruct (getitems_plain ixs s h f Hr Hpl Hok) as (s' & h' & E1 & E2 & E3 & E4 & E5 & E6 & _ & E8).
  destruct (E8 Hs) as [Hs' _]. exists s', h'. split; [exact E1|]. split; [exact Hs'|]. split; [eexists; exact E5|].
  split; [exact E4|]. split; [eapply chain_elements_repr; eassumption|]. intros Hp.
  assert (HE : exists E, entries h' s' E).
  { destruct s'; try contradiction; destruct E5 as (E & HE & _); now exists E. }
  destruct HE as [E HE]. exists E. split; [now apply elements_sparse|].
  destruct (entries_ordered h' s' E HE) as [O1 O2]. split; assumption.
Qed.
Print Assumptions C27_sparse_slices.

Example C27_case :
  ('(s, h) <- fromobject CCSR [] (SrcSeq nested_2x3) (fo_unspecified (Some (VInt 0))) ;;
   '(v, h1) <- getitems h s [XTuple [ISlice (Sl None None (Some (-1))); ISlice (Sl None None (Some (-1)))];
                             XItem (IInt 1)] ;;
   e <- elements h1 v ;; Ok (shape_of v, e))
  = Ok ([3], [(KTup [0], VInt 3); (KTup [2], VInt 1)]).
Proof. vm_compute. reflexivity. Qed.

(** ** C28, C29 *)

(** DM.fromobject(seq, dimensions, partitioning, storage_class, unspecified)
    followed by reading an element or by slicing. *)
Theorem C28_dm_elements : forall c h v sh u dimensions partitioning,
  regular sh v -> positive sh ->
  mapping_ok (zlen sh) dimensions partitioning ->
  dm_rank_ok c (n_groups c (zlen sh) partitioning) ->
  let u' := chosen VNone u in
  (c = CCSR -> exists i x, in_box i sh /\ nested_at v i = Some x /\ x <> VNone /\ x <> u') ->
  exists rdims rsh rst ro d h',
    dm_fromobject h (SrcSeq v) (fo_unspecified u) dimensions partitioning c = Ok (SDM sh rdims rsh rst ro d, h')
    /\ is_class c d /\ unspecified_of d = u' /\ valid h' (SDM sh rdims rsh rst ro d)
    /\ forall i, in_box i sh -> exists x, nested_at v i = Some x
         /\ (x = VNone -> get_elem h' (SDM sh rdims rsh rst ro d) i = Ok u')
         /\ (x <> VNone -> get_elem h' (SDM sh rdims rsh rst ro d) i = Ok x).
Proof.
  intros c h v sh u dimensions partitioning Hreg Hp [Hn Hd Hpart] Hc u' Hsp.
  assert (Hsrc : source_repr h (SrcSeq v) (nested_elem v)).
  { exists sh. split; [exact Hreg|reflexivity]. }
  pose proof (source_reads h (SrcSeq v) (nested_elem v) u Hsrc) as Hreads.
  cbn [get_shape] in Hreads. rewrite (regular_shape sh v Hreg) in Hreads.
  pose proof (dm_args_strict (dm_is_buffer c) _ _ _ Hn Hd Hpart) as Ha.
  destruct (dm_fromobject_ok c h (SrcSeq v) (fo_unspecified u) dimensions partitioning sh _ Hreads Hp Ha)
    as (d & h' & E1 & E2 & E3 & E4 & E5 & E6 & E7 & E8).
  { apply (dm_class_ok_intro c sh dimensions partitioning u'
             (fo_value (SrcSeq v) (fo_unspecified u) (nested_elem v))); auto.
    intros Ec. destruct (Hsp Ec) as (i & x & Hi & Hx & N1 & N2). exists i. split; [exact Hi|].
    unfold fo_value, nested_elem. rewrite Hx. now apply conv_differs. }
  eexists _, _, _, _, d, h'. split; [exact E1|]. split; [exact E7|]. split; [exact E3|].
  split; [eexists; exact E6|].
  intros i Hi. exists (nested_elem v i). split; [now apply (regular_get sh)|].
  rewrite (repr_get h' _ _ i E6 Hi).
  destruct (conv_cases VNone u' (nested_elem v i) _ eq_refl) as [C1 C2].
  split; intros H; f_equal; [now apply C1|now apply C2].
Qed.
Print Assumptions C28_dm_elements.

Definition nested_2x2x2 : pyval :=
  VSeq [VSeq [VSeq [VInt 0; VInt 1]; VSeq [VInt 2; VInt 3]];
        VSeq [VSeq [VInt 4; VInt 5]; VSeq [VInt 6; VInt 7]]].
(** Axes 2 and 0 together, axis 1 alone, in a CSR. *)
Example C28_case : mapping_ok 3 (Some [2; 0; 1]) (Some [2])
  /\ ('(s, h) <- dm_fromobject [] (SrcSeq nested_2x2x2) (fo_unspecified (Some (VInt 0)))
                               (Some [2; 0; 1]) (Some [2]) CCSR ;;
      get_elem h s [1; 0; 1]) = Ok (VInt 5).
Proof.
  split; [|vm_compute; reflexivity]. constructor; [lia| |].
  - intros d E. injection E as <-. apply NoDup_Permutation.
    + repeat constructor; cbn; intuition lia.
    + apply NoDup_zseq.
    + intros x. rewrite In_zseq. cbn. lia.
  - intros p E. injection E as <-. split; repeat constructor; lia.
Qed.

(** One slice [ix] of [s] gives [t]. *)
Definition slice_elements (h : heap) (s : storage) (ix : pyindex) (h' : heap) (t : storage) : Prop :=
  shape_of t = slice_shape ix (shape_of s)
  /\ unspecified_of t = unspecified_of s
  /\ forall j, in_box j (shape_of t) ->
       in_box (source_index ix (shape_of s) j) (shape_of s)
       /\ exists x, get_elem h s (source_index ix (shape_of s) j) = Ok x /\ get_elem h' t j = Ok x.

Lemma slice_elements_repr h s f ix h' t : repr h s f -> positive (shape_of s) -> ok_index ix (shape_of s) ->
  shape_of t = slice_shape ix (shape_of s) -> unspecified_of t = unspecified_of s ->
  repr h' t (fun j => f (source_index ix (shape_of s) j)) ->
  slice_elements h s ix h' t.
Proof.
  intros Hr Hp Hok Hsh Hu Ht. split; [exact Hsh|]. split; [exact Hu|]. intros j Hj.
  assert (Hb : in_box (source_index ix (shape_of s) j) (shape_of s)).
  { apply source_index_in_box; auto. now rewrite <- Hsh. }
  split; [exact Hb|]. eexists. split; [exact (repr_get h s f _ Hr Hb)|]. exact (repr_get h' t _ j Ht Hj).
Qed.

(** DM arrays made by fromobject or as_DM from a nested list or a storage. *)
Inductive built_dm (h : heap) : heap -> storage -> Prop :=
| built_seq v sh u dimensions partitioning c s h' :
    regular sh v -> positive sh -> mapping_ok (zlen sh) dimensions partitioning ->
    dm_rank_ok c (n_groups c (zlen sh) partitioning) ->
    (c = CCSR -> exists i x, in_box i sh /\ nested_at v i = Some x /\ x <> VNone /\ x <> chosen VNone u) ->
    dm_fromobject h (SrcSeq v) (fo_unspecified u) dimensions partitioning c = Ok (s, h') ->
    built_dm h h' s
| built_sto t u dimensions partitioning c s h' :
    valid h t -> positive (shape_of t) -> mapping_ok (zlen (shape_of t)) dimensions partitioning ->
    dm_rank_ok c (n_groups c (zlen (shape_of t)) partitioning) ->
    (c = CCSR -> some_element_stays h t (chosen (unspecified_of t) u)) ->
    as_DM h t dimensions partitioning c u = Ok (s, h') ->
    built_dm h h' s.

Lemma built_dm_ok h h' s : built_dm h h' s ->
  exists f, repr h' s f /\ zero_off s /\ is_dm s /\ positive (shape_of s).
Proof.
  assert (Z : forall rdims d, zero_off d -> forall sh rsh rst, zero_off (SDM sh rdims rsh rst (repeat 0 (length rdims)) d)).
  { intros rdims d Hd sh rsh rst. split; [|exact Hd]. apply Forall_forall. intros x Hx. now apply repeat_spec in Hx. }
  intros [v sh u dimensions partitioning c s0 h0 Hreg Hp [Hn Hd Hpart] Hc Hsp E
         |t u dimensions partitioning c s0 h0 [f Hr] Hp [Hn Hd Hpart] Hc Hst E].
  - assert (Hsrc : source_repr h (SrcSeq v) (nested_elem v)).
    { exists sh. split; [exact Hreg|reflexivity]. }
    pose proof (source_reads h (SrcSeq v) (nested_elem v) u Hsrc) as Hreads.
    cbn [get_shape] in Hreads. rewrite (regular_shape sh v Hreg) in Hreads.
    pose proof (dm_args_strict (dm_is_buffer c) _ _ _ Hn Hd Hpart) as Ha.
    destruct (dm_fromobject_ok c h (SrcSeq v) (fo_unspecified u) dimensions partitioning sh _ Hreads Hp Ha)
      as (d & h1 & E1 & E2 & E3 & E4 & E5 & E6 & E7 & E8).
    { apply (dm_class_ok_intro c sh dimensions partitioning (chosen VNone u)
               (fo_value (SrcSeq v) (fo_unspecified u) (nested_elem v))); auto.
      intros Ec. destruct (Hsp Ec) as (i & x & Hi & Hx & N1 & N2). exists i. split; [exact Hi|].
      unfold fo_value, nested_elem. rewrite Hx. now apply conv_differs. }
    rewrite E1 in E. injection E as <- <-. eexists. split; [exact E6|]. split; [now apply Z|]. split; [exact I|exact Hp].
  - assert (Hne : shape_of t <> []) by (intros E'; rewrite E' in Hn; discriminate).
    pose proof (dm_args_strict (dm_is_buffer c) _ _ _ Hn Hd Hpart) as Ha.
    pose proof (storage_reads h t f (Some (shape_of t)) u Hr Hne eq_refl) as Hreads.
    destruct (dm_fromobject_ok c h (SrcSto t) (FO (Some (shape_of t)) None u) dimensions partitioning _ f Hreads Hp Ha)
      as (d & h1 & E1 & E2 & E3 & E4 & E5 & E6 & E7 & E8).
    { apply (dm_class_ok_intro c (shape_of t) dimensions partitioning (chosen (unspecified_of t) u)
               (fo_value (SrcSto t) (FO (Some (shape_of t)) None u) f)); auto.
      intros Ec. exact (stays_specified h t f _ Hr (Hst Ec)). }
    unfold as_DM in E. rewrite E1 in E. injection E as <- <-.
    eexists. split; [exact E6|]. split; [now apply Z|]. split; [exact I|exact Hp].
Qed.

Theorem C29_dm_slices : forall h h1 d ix,
  built_dm h h1 d -> ok_index ix (shape_of d) -> slice_shape ix (shape_of d) <> [] ->
  exists s' h2, getitem h1 d ix = Ok (ISto s', h2)
    /\ valid h2 s' /\ extends h1 h2 /\ slice_elements h1 d ix h2 s'.
Proof.
  intros h h1 d ix Hb Hok Hne. destruct (built_dm_ok h h1 d Hb) as (f & Hr & Hz & Hdm & Hp).
  destruct (getitem_slice d h1 f ix Hr Hp Hok Hne (safe_zero d h1 f ix Hr Hz Hp Hok Hne (is_dm_not_buffer d Hdm)))
    as (s' & h2 & E1 & E2 & E3 & E4 & E5 & _).
  exists s', h2. split; [exact E1|]. split; [eexists; exact E5|]. split; [exact E4|].
  now apply (slice_elements_repr h1 d f).
Qed.
Print Assumptions C29_dm_slices.

Example C29_case :
  ('(s, h) <- dm_fromobject [] (SrcSeq nested_2x2x2) (fo_unspecified (Some (VInt 0)))
                               (Some [2; 0; 1]) (Some [2]) CCOO ;;
   '(v, h1) <- getitems h s [XTuple [ISlice (Sl None None (Some (-1))); IInt 1]] ;;
   e <- elements h1 v ;; Ok (shape_of v, e))
  = Ok ([2; 2], [(KTup [0; 0], VInt 6); (KTup [0; 1], VInt 7); (KTup [1; 0], VInt 2); (KTup [1; 1], VInt 3)]).
Proof. vm_compute. reflexivity. Qed.

(** ** C30 *)

(** [[1, 2], [3, 4]] as a DM array: s[1:][0] should be [3, 4] and is [1, 2]. *)
Theorem C30_chained_dm_slices_refuted :
  exists h d, built_dm [] h d
    /\ chain_ok [XItem (ISlice (Sl (Some 1) None None)); XItem (IInt 0)] (shape_of d)
    /\ exists t h', getitems h d [XItem (ISlice (Sl (Some 1) None None)); XItem (IInt 0)] = Ok (t, h')
       /\ shape_of t = [2]
       /\ get_elem h d (chain_source [XItem (ISlice (Sl (Some 1) None None)); XItem (IInt 0)] (shape_of d) [0]) = Ok (VInt 3)
       /\ get_elem h' t [0] = Ok (VInt 1).
Proof.
  set (v := VSeq [VSeq [VInt 1; VInt 2]; VSeq [VInt 3; VInt 4]]).
  destruct (dm_fromobject [] (SrcSeq v) (fo_unspecified None) None None CStrided) as [[d h]|] eqn:E;
    [|vm_compute in E; discriminate].
  exists h, d. split; [|split].
  - eapply (built_seq [] v [2; 2] None None None CStrided); try exact E; try discriminate.
    + repeat (split || constructor); cbn; discriminate.
    + repeat constructor; lia.
    + constructor; [unfold zlen; cbn; lia|discriminate|discriminate].
    + exact I.
  - assert (Es : shape_of d = [2; 2]) by (vm_compute in E; injection E as <- <-; reflexivity). rewrite Es.
    cbn [chain_ok].
    change (slice_shape (XItem (ISlice (Sl (Some 1) None None))) [2; 2]) with [1; 2].
    change (slice_shape (XItem (IInt 0)) [1; 2]) with [2].
    split; [repeat constructor; lia|]. split; [split; [repeat constructor; cbn; lia|right; cbn; lia]|].
    split; [discriminate|]. split; [repeat constructor; lia|].
    split; [split; [repeat constructor; cbn; lia|right; cbn; lia]|]. split; [discriminate|exact I].
  - vm_compute in E. injection E as <- <-. eexists _, _. split; [vm_compute; reflexivity|].
    split; [reflexivity|]. split; [vm_compute; reflexivity|vm_compute; reflexivity].
Qed.
Print Assumptions C30_chained_dm_slices_refuted.

(** Chains whose indices after the first contain no integers compose. *)
Theorem C30_chained_dm_slices_partial : forall h h1 d ix ixs,
  built_dm h h1 d -> chain_ok (ix :: ixs) (shape_of d) -> Forall int_free ixs ->
  exists s' h2, getitems h1 d (ix :: ixs) = Ok (s', h2)
    /\ valid h2 s' /\ extends h1 h2 /\ chain_elements h1 d (ix :: ixs) h2 s'.
Proof.
  intros h h1 d ix ixs Hb Hok Hfree. destruct (built_dm_ok h h1 d Hb) as (f & Hr & Hz & Hdm & _).
  pose proof Hok as (Hp & Hx & Hne & Hok').
  destruct (getitem_slice d h1 f ix Hr Hp Hx Hne (safe_zero d h1 f ix Hr Hz Hp Hx Hne (is_dm_not_buffer d Hdm)))
    as (s1 & h2 & E1 & E2 & E3 & E4 & E5 & _).
  rewrite <- E2 in Hok'.
  destruct (getitems_int_free ixs s1 h2 _ E5 (dm_slice_dm d h1 ix s1 h2 Hdm Hne Hp Hx E1)
              (slice_no_empty d h1 ix s1 h2 E1) Hok' Hfree) as (s2 & h3 & F1 & F2 & F3 & F4 & F5 & _).
  exists s2, h3. cbn [getitems]. rewrite E1. cbn [bind]. split; [exact F1|]. split; [eexists; exact F5|].
  split; [eapply extends_trans; eassumption|].
  apply (chain_elements_repr h1 d f); auto.
  - now rewrite F2, E2.
  - now rewrite F3.
  - cbn [chain_source]. rewrite <- E2. exact F5.
Qed.
Print Assumptions C30_chained_dm_slices_partial.

Example C30_partial_case :
  Forall int_free [XTuple [ISlice (Sl None None (Some (-1))); ISlice (Sl (Some 1) None None)]]
  /\ ('(s, h) <- dm_fromobject [] (SrcSeq nested_2x2x2) (fo_unspecified None) (Some [2; 0; 1]) (Some [2]) CStrided ;;
      '(v, h1) <- getitems h s [XTuple [INone; IInt 1];
                               XTuple [ISlice (Sl None None (Some (-1))); ISlice (Sl (Some 1) None None)]] ;;
      e <- elements h1 v ;; Ok (shape_of v, e))
     = Ok ([2; 1], [(KTup [0; 0], VInt 7); (KTup [1; 0], VInt 3)]).
Proof. split; [repeat constructor|vm_compute; reflexivity]. Qed.

(** ** C31 *)
Theorem C31_dm_rejects : forall c h src a dimensions partitioning s h',
  dm_fromobject h src a dimensions partitioning c = Ok (s, h') ->
  let n := zlen (fo_get_shape src a) in
  (forall p, partitioning = Some p -> Sorted Z.le p /\ Forall (fun x => 0 < x < n) p /\ zlen p < n)
  /\ (forall d, dimensions = Some d -> Permutation (firstn (length (fo_get_shape src a)) d) (zseq n)).
Proof.
  intros c h src a dimensions partitioning s h' H n.
  assert (G : exists ib fo, dm_fromobject_gen ib fo h src a dimensions partitioning = Ok (s, h')).
  { unfold dm_fromobject in H. destruct c; eauto. }
  destruct G as (ib & fo & G). apply dm_fromobject_gen_inv in G. cbv zeta in G. fold n in G.
  destruct G as (G1 & G2 & G3 & G4 & _). split.
  - intros p ->. cbn [dm_part] in *. auto.
  - intros d ->. cbn [dm_dims] in G4. unfold n in *. unfold zlen in G4. rewrite Nat2Z.id in G4. exact G4.
Qed.
Print Assumptions C31_dm_rejects.

Example C31_case :
  let v := SrcSeq nested_2x2x2 in
  (exists x, dm_fromobject [] v fo_default (Some [0; 1; 1]) None CStrided = Raise x)
  /\ (exists x, dm_fromobject [] v fo_default (Some [0; 1]) None CStrided = Raise x)
  /\ (exists x, dm_fromobject [] v fo_default None (Some [2; 1]) CStrided = Raise x)
  /\ (exists x, dm_fromobject [] v fo_default None (Some [0; 1]) CStrided = Raise x)
  /\ (exists x, dm_fromobject [] v fo_default None (Some [3]) CStrided = Raise x)
  /\ (exists r, dm_fromobject [] v fo_default (Some [0; 2; 1; 7]) (Some [1; 2]) CStrided = Ok r).
Proof. repeat split; eexists; vm_compute; reflexivity. Qed.

(** ** C38 *)
Theorem C38_copy : forall h s u, valid h s ->
  let u' := chosen (unspecified_of s) u in
  exists t h', copy h s u = Ok (t, h')
    /\ unspecified_of t = u' /\ valid h' t /\ extends h h'
    /\ same_elements h s h' t u'.
Proof.
  intros h s u [f Hr] u'.
  destruct (copy_ok s h f u Hr) as (t & h' & E1 & E2 & E3 & E4 & E5 & _).
  exists t, h'. split; [exact E1|]. split; [exact E3|]. split; [eexists; exact E5|]. split; [exact E4|].
  eapply same_elements_conv; eassumption.
Qed.
Print Assumptions C38_copy.

Example C38_case :
  ('(s, h) <- fromobject CCOO [] (SrcSeq nested_2x3) (fo_unspecified (Some (VInt 0))) ;;
   '(t, h1) <- copy h s (Some (VInt 9)) ;;
   x <- get_elem h1 t [1; 0] ;; y <- get_elem h1 t [1; 1] ;; Ok (x, y)) = Ok (VInt 9, VInt 5).
Proof. vm_compute. reflexivity. Qed.

(** ** C41 *)

(** [l] lists the indices of the box in row-major order, each once. *)
Definition row_major_list (sh : list Z) (l : list (list Z)) : Prop :=
  StronglySorted row_major_lt l /\ forall i, In i l <-> in_box i sh.

Theorem C41_elements_dense : forall h s,
  valid h s -> match s with SStrided _ | SDM _ _ _ _ _ _ => True | _ => False end ->
  exists l, elements h s = Ok l
    /\ exists idx, row_major_list (shape_of s) idx
       /\ map fst l = map KTup idx
       /\ forall i x, In (KTup i, x) l <-> in_box i (shape_of s) /\ get_elem h s i = Ok x.
Proof.
  intros h s [f Hr] Hs. eexists. split; [exact (elements_dense h s f Hr Hs)|].
  exists (cart (shape_of s)). split; [split; [apply cart_sorted|intros i; apply In_cart]|].
  split; [now rewrite !map_map|]. intros i x. rewrite in_map_iff. split.
  - intros (k & Ek & Hk). injection Ek as -> <-. apply In_cart in Hk. split; [exact Hk|now apply repr_get].
  - intros [Hi Hx]. rewrite (repr_get h s f i Hr Hi) in Hx. injection Hx as <-. exists i.
    split; [reflexivity|now apply In_cart].
Qed.
Print Assumptions C41_elements_dense.

(** Sparse classes: the enumeration is ordered, has [size] elements, contains
    only elements of the array, and all elements different from the unspecified
    value. *)
Theorem C41_elements_sparse : forall h s,
  valid h s -> is_sparse s -> positive (shape_of s) ->
  exists L, elements h s = Ok (map (fun e => (KTup (fst e), snd e)) L)
    /\ StronglySorted row_major_lt (map fst L)
    /\ size_of s = Ok (zlen L)
    /\ (forall i x, In (i, x) L -> in_box i (shape_of s) /\ get_elem h s i = Ok x)
    /\ (forall i, in_box i (shape_of s) -> ~ In i (map fst L) -> get_elem h s i = Ok (unspecified_of s)).
Proof.
  intros h s [f Hr] Hs Hp.
  assert (HE : exists E, entries h s E /\ forall i, in_box i (shape_of s) -> f i = lookup E (unspecified_of s) i).
  { destruct s; try contradiction; exact Hr. }
  destruct HE as (E & HE & Hf). exists E. split; [now apply elements_sparse|].
  pose proof (entries_ordered h s E HE) as Ho. split; [apply Ho|]. split; [|split].
  - destruct s; try contradiction; cbn [size_of].
    + destruct HE as (_ & _ & _ & _ & -> & _). reflexivity.
    + destruct HE as (_ & _ & _ & _ & (l & _ & _ & Hb & _) & _). now rewrite Hb, zlen_map.
    + destruct HE as (_ & _ & _ & (l & _ & _ & Hb & _) & _). now rewrite Hb, zlen_map.
  - intros i x Hin. assert (Hi : in_box i (shape_of s)).
    { destruct Ho as [Hb _]. rewrite Forall_forall in Hb. exact (Hb _ Hin). }
    split; [exact Hi|]. rewrite (repr_get h s f i Hr Hi). f_equal. rewrite Hf by exact Hi.
    apply In_lookup; [|exact Hin]. eapply ordered_NoDup; eassumption.
  - intros i Hi Hn. rewrite (repr_get h s f i Hr Hi). f_equal. rewrite Hf by exact Hi.
    now apply lookup_absent.
Qed.
Print Assumptions C41_elements_sparse.

Theorem C41_elements_buffer : forall h b,
  valid h (SBuffer b) ->
  exists vs, elements h (SBuffer b) = Ok (map (fun x => (KInt x, nth (Z.to_nat x) vs VNone)) (zseq (bsize b)))
    /\ forall x, 0 <= x < bsize b -> get_elem h (SBuffer b) [x] = Ok (nth (Z.to_nat x) vs VNone).
Proof.
  intros h b [f Hr]. pose proof Hr as (vs & Hh & Hf). exists vs.
  assert (Hz : bsize b = zlen vs) by (destruct Hh as (? & _ & _ & H & _); exact H).
  split.
  - rewrite (elements_buffer h b f Hr). f_equal. apply map_ext_in. intros x Hx. apply In_zseq in Hx.
    f_equal. apply Hf. lia.
  - intros x Hx. rewrite (repr_get h (SBuffer b) f [x] Hr) by (repeat constructor; lia). f_equal. apply Hf. lia.
Qed.
Print Assumptions C41_elements_buffer.

Example C41_case :
  ('(s, h) <- fromobject CDM [] (SrcSeq nested_2x3) fo_default ;; elements h s)
  = Ok [(KTup [0; 0], VInt 1); (KTup [0; 1], VNone); (KTup [0; 2], VInt 3);
        (KTup [1; 0], VNone); (KTup [1; 1], VInt 5); (KTup [1; 2], VInt 0)].
Proof. vm_compute. reflexivity. Qed.

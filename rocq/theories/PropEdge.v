(** C42, C46, C47: empty arrays, as_C2SR, lists that are not rectangular. *)
From Coq Require Import Sorting.Sorted Permutation ZifyBool.
From Verif Require Import Py SliceTools Basics Storage Spec SliceFacts IndexFacts
  CompressFacts ReduceFacts SolverFacts SolveFacts Repr ReprFacts ViewFacts BuildFacts SparseFacts
  ConvFacts FromFacts DMFacts ReadFacts MapFacts ChainFacts WriteFacts EffectFacts EqFacts PropRead PropWrite PropEq.

(** ** C42 *)

Lemma pyget_nil {A} i : @pyget A [] i = Raise IndexError.
Proof.
  unfold pyget. destruct (_ <? 0); [reflexivity|]. now destruct (Z.to_nat _).
Qed.

(** A Strided on an empty list raises on every index. *)
Lemma empty_strided_raises h t ix : nth_error h (baddr (sdata t)) = Some [] ->
  exists e, strided_getitem h t ix = Raise e.
Proof.
  intros Hl. unfold strided_getitem. destruct (normalize_index ix (sshape t)) as [nix|e]; cbn [bind]; [|eauto].
  destruct (is_element_index nix (sshape t)).
  - destruct (get_position _ _ _) as [p|e]; cbn [bind]; [|eauto]. unfold buf_get. rewrite (cell_ok _ _ _ Hl).
    cbn [bind]. rewrite pyget_nil. cbn [bind]. eauto.
  - destruct (index_strided _ _ _ _) as [[[sh st] off]|e]; cbn [bind]; [|eauto].
    unfold buf_slice. rewrite (cell_ok _ _ _ Hl). cbn [bind sl_start]. change (zlen (@nil pyval)) with 0.
    destruct ((boff (sdata t) + off <? 0) || (0 <=? boff (sdata t) + off)) eqn:E; [cbn [bind]; eauto|lia].
Qed.

(** Every Strided built from an empty (nested) list raises on every index, even
    on s[:]. *)
Theorem C42_empty_strided_refuted : forall h v sh u,
  regular sh v -> In 0 sh ->
  exists s h', fromobject CStrided h (SrcSeq v) (fo_unspecified u) = Ok (s, h')
    /\ shape_of s = sh /\ valid h' s /\ elements h' s = Ok []
    /\ forall ix, exists e, getitem h' s ix = Raise e.
Proof.
  intros h v sh u Hreg Hz.
  assert (Hsrc : source_repr h (SrcSeq v) (nested_elem v)) by (exists sh; split; [exact Hreg|reflexivity]).
  pose proof (source_reads h (SrcSeq v) (nested_elem v) u Hsrc) as Hreads.
  cbn [get_shape] in Hreads. rewrite (regular_shape sh v Hreg) in Hreads. destruct Hreads as (R1 & R2 & R3).
  destruct (repr_strided_build (fo_get h (SrcSeq v) (fo_unspecified u)) (nested_elem v) sh VNone
    (fo_get_unspec (SrcSeq v) (fo_unspecified u)) h R2 R3) as (t & h' & E1 & E2 & E3 & E4 & E5 & E6).
  assert (Hc : cart sh = []).
  { destruct (cart sh) as [|i r] eqn:Ec; [reflexivity|]. exfalso.
    assert (Hi : in_box i sh) by (apply In_cart; rewrite Ec; now left). clear - Hi Hz.
    induction Hi; [contradiction|]. destruct Hz as [->|Hz]; [lia|auto]. }
  exists (SStrided t), h'. split.
  - cbn [fromobject flat_fromobject]. unfold strided_fromobject. rewrite R1. cbn [get_unspecified].
    rewrite E1. reflexivity.
  - split; [exact E2|]. split; [eexists; exact E6|].
    split; [rewrite (elements_dense h' _ _ E6 I); cbn [shape_of]; now rewrite E2, Hc|].
    intros ix. cbn [getitem]. rewrite Hc in E5. cbn [map] in E5.
    destruct (empty_strided_raises h' t ix) as (e & Ee); [rewrite E4, E5; apply nth_error_new|].
    rewrite Ee. cbn [bind]. eauto.
Qed.
Print Assumptions C42_empty_strided_refuted.

(** CSR arrays must store at least one element: fromobject raises IndexError for
    every 2-D list in which every element is unspecified. *)
Theorem C42_empty_CSR_refuted : forall h v n m u,
  regular [n; m] v ->
  (forall i x, in_box i [n; m] -> nested_at v i = Some x -> x = VNone \/ x = chosen VNone u) ->
  fromobject CCSR h (SrcSeq v) (fo_unspecified u) = Raise IndexError.
Proof.
  intros h v n m u Hreg Hu. set (u' := chosen VNone u) in *.
  assert (Hsrc : source_repr h (SrcSeq v) (nested_elem v)) by (exists [n; m]; split; [exact Hreg|reflexivity]).
  pose proof (source_reads h (SrcSeq v) (nested_elem v) u Hsrc) as Hreads.
  cbn [get_shape] in Hreads. rewrite (regular_shape [n; m] v Hreg) in Hreads. destruct Hreads as (R1 & R2 & R3).
  cbn [fromobject flat_fromobject]. unfold csr_fromobject. rewrite coo_fromobject_build by exact I. rewrite R1.
  unfold coo_build. rewrite (collect_ok _ (nested_elem v)) by (intros i Hi; apply R3; now apply In_cart).
  cbn [bind get_unspecified].
  fold (entries_of [n; m] (fo_get_unspec (SrcSeq v) (fo_unspecified u))
     (fun i => conv_value VNone (fo_get_unspec (SrcSeq v) (fo_unspecified u)) (nested_elem v i))).
  assert (He : entries_of [n; m] (fo_get_unspec (SrcSeq v) (fo_unspecified u))
     (fun i => conv_value VNone (fo_get_unspec (SrcSeq v) (fo_unspecified u)) (nested_elem v i)) = []).
  { change (fo_get_unspec (SrcSeq v) (fo_unspecified u)) with u'.
    destruct (entries_of _ _ _) as [|[i x] r] eqn:Ee; [reflexivity|]. exfalso.
    pose proof (entries_of_specified [n; m] u' (fun i => conv_value VNone u' (nested_elem v i))) as Q.
    pose proof (entries_of_ordered [n; m] u' (fun i => conv_value VNone u' (nested_elem v i))) as [B _].
    rewrite Ee in Q, B. inversion Q as [|? ? Q1 _]; subst. inversion B as [|? ? B1 _]; subst. cbn [fst snd] in *.
    assert (Hx : x = conv_value VNone u' (nested_elem v i)).
    { assert (Hin : In (i, x) (entries_of [n; m] u' (fun i => conv_value VNone u' (nested_elem v i)))) by (rewrite Ee; now left).
      unfold entries_of, specified in Hin. apply filter_In in Hin. destruct Hin as [Hin _]. apply in_map_iff in Hin.
      destruct Hin as (j & Ej & _). injection Ej as -> <-. reflexivity. }
    destruct (regular_get [n; m] v i Hreg B1) as [_ Hy]. destruct (Hu i _ B1 Hy) as [Ey|Ey]; rewrite Ey in Hx.
    - rewrite conv_value_unspec in Hx. contradiction.
    - apply Q1. rewrite Hx. unfold conv_value. now destruct (veqb u' VNone). }
  rewrite He. cbn [map]. rewrite new_buffer_ok. cbn [bind].
  set (h1 := h ++ [[]]). change (columns (length [n; m]) []) with [@nil Z; @nil Z].
  destruct (strided_of_rows [[]; []] 0 h1) as (t & Et & Hsh & Hst & Ha & _ & Hh); [discriminate|repeat constructor|].
  cbn [concat app map] in Et. rewrite Et. cbn [bind]. unfold mk_coo. rewrite Hsh.
  change (pyget [zlen [@nil Z; []]; 0] 1) with (@Ok Z 0). cbn [bind bsize]. change (zlen (@nil pyval)) with 0.
  cbn [assert_ Z.eqb bind]. unfold csr_of_coo, strided_row.
  assert (Hcell : nth_error (h1 ++ [[]]) (baddr (sdata t)) = Some []) by (rewrite Ha; apply nth_error_new).
  destruct Hh as (l0 & Hl0 & Hb0 & _). cbn [concat app map] in Hl0. rewrite Hcell in Hl0.
  unfold strided_getitem. rewrite Hsh, Hst. change (zlen [@nil Z; []]) with 2.
  change (normalize_index (XItem (IInt 0)) [2; 0]) with (Ok [NInt 0; NNone]). cbn [bind].
  change (is_element_index [NInt 0; NNone] [2; 0]) with false. cbv iota.
  change (index_strided [NInt 0; NNone] [2; 0] [0; 1] 0) with (Ok ([0], [1], 0) : res geom). cbn [bind].
  unfold buf_slice. rewrite (cell_ok _ _ _ Hcell). cbn [bind sl_start]. change (zlen (@nil pyval)) with 0.
  replace ((boff (sdata t) + 0 <? 0) || (0 <=? boff (sdata t) + 0)) with true by lia. reflexivity.
Qed.
Print Assumptions C42_empty_CSR_refuted.

(** Slices selecting nothing succeed and have no elements, if the sliced array
    is not empty itself. *)
Theorem C42_empty_slices_partial : forall h s ix,
  valid h s -> is_sparse s \/ match s with SStrided _ => True | _ => False end ->
  positive (shape_of s) -> ok_index ix (shape_of s) -> In 0 (slice_shape ix (shape_of s)) ->
  exists s' h', getitem h s ix = Ok (ISto s', h') /\ valid h' s' /\ extends h h'
    /\ shape_of s' = slice_shape ix (shape_of s) /\ size_of s' = Ok 0.
Proof.
  intros h s ix [f Hr] Hc Hp Hok Hz.
  assert (Hpl : plain s) by (destruct s; cbn in *; tauto).
  assert (Hne : slice_shape ix (shape_of s) <> []) by (destruct (slice_shape _ _); [contradiction|discriminate]).
  destruct (slice_plain s h f ix Hr Hpl Hp Hok Hne) as (s' & h' & E1 & E2 & E3 & E4 & E5 & E6 & _).
  exists s', h'. split; [exact E1|]. split; [eexists; exact E5|]. split; [exact E4|]. split; [exact E2|].
  assert (N : forall i, ~ in_box i (shape_of s')).
  { intros i Hi. rewrite E2 in Hi. clear - Hi Hz. induction Hi; [contradiction|]. destruct Hz as [->|Hz]; [lia|auto]. }
  assert (Z0 : is_sparse s' -> exists E, entries h' s' E /\ E = []).
  { intros Hs. destruct (sparse_entries h' s' _ E5 Hs) as (E & HE & _). exists E. split; [exact HE|].
    destruct E as [|e E]; [reflexivity|]. pose proof (entries_ordered h' s' _ HE) as [Hb _]. inversion Hb; subst.
    exfalso. eapply N. eassumption. }
  destruct s'; try contradiction; cbn [size_of].
  - destruct E5 as (l & _ & Hok' & _). pose proof (so_shape _ _ Hok') as Hn. cbn [shape_of] in *. rewrite <- E2 in Hz.
    f_equal. clear - Hz. induction (sshape s0) as [|n l IH]; [contradiction|]. cbn [product].
    destruct Hz as [->|Hz]; [lia|]. rewrite IH by exact Hz. lia.
  - destruct (Z0 I) as (E & (_ & _ & _ & _ & Hsh & _) & ->). rewrite Hsh. reflexivity.
  - destruct (Z0 I) as (E & (_ & _ & _ & _ & Hf & _) & ->). destruct Hf as (l & _ & _ & Hz' & _). now rewrite Hz'.
  - destruct (Z0 I) as (E & (_ & _ & _ & Hf & _) & ->). destruct Hf as (l & _ & _ & Hz' & _). now rewrite Hz'.
Qed.
Print Assumptions C42_empty_slices_partial.

(** Conversions of arrays with empty dimensions succeed, except that of a
    FlatCOO to COO with the default arguments. *)
Theorem C42_conversions_partial : forall c h s u,
  valid h s -> shape_of s <> [] -> class_rank c (shape_of s) ->
  (c = CBuffer \/ c = CStrided \/ c = CCOO \/ c = CFlatCOO) ->
  match s with SFlatCOO _ _ _ => c <> CCOO \/ u <> None | _ => True end ->
  let u' := chosen (unspecified_of s) u in
  exists t h', as_storage c h s u = Ok (t, h')
    /\ is_class c t /\ unspecified_of t = u' /\ valid h' t /\ extends h h'
    /\ same_elements h s h' t u'.
Proof.
  intros c h s u [f Hr] Hne Hc Hcl Hx u'.
  assert (Ha : as_storage c h s u = flat_fromobject c h (SrcSto s) (fo_unspecified u)).
  { destruct Hcl as [->|[->|[->| ->]]]; reflexivity. }
  assert (Hck : class_ok c (shape_of s) (fo_get_unspec (SrcSto s) (fo_unspecified u)) (fo_value (SrcSto s) (fo_unspecified u) f)).
  { destruct Hcl as [->|[->|[->| ->]]]; cbn [class_ok class_rank] in *; auto. }
  assert (D : {no_shortcut c (SrcSto s) (fo_unspecified u)} + {~ no_shortcut c (SrcSto s) (fo_unspecified u)}).
  { unfold no_shortcut. destruct s, (is_default (fo_unspecified u)), c; auto; left; exact I. }
  destruct D as [D|D].
  - destruct (build_class c h (SrcSto s) (fo_unspecified u) (shape_of s) f D
      (source_reads h (SrcSto s) f u (conj Hr Hne)) Hck) as (t & h' & E1 & E2 & E3 & E4 & E5 & _ & E7 & _).
    exists t, h'. rewrite Ha. split; [exact E1|]. split; [exact E2|]. split; [exact E4|].
    split; [eexists; exact E7|]. split; [exact E5|]. apply (same_elements_conv h s f); auto.
  - assert (Hu : u = None).
    { destruct u; [|reflexivity]. exfalso. apply D. unfold no_shortcut. exact I. }
    subst u. cbn [chosen] in u'. rewrite Ha.
    assert (Hr' : repr h s (fun i => conv_value (unspecified_of s) u' (f i))).
    { eapply repr_ext; [|exact Hr]. intros. cbn. unfold u'. symmetry. apply conv_value_id. }
    assert (Self : exists t h', Ok (s, h) = Ok (t, h') /\ (is_class c s -> is_class c t) /\ unspecified_of t = u'
       /\ valid h' t /\ extends h h' /\ same_elements h s h' t u').
    { exists s, h. split; [reflexivity|]. split; [auto|]. split; [reflexivity|]. split; [eexists; exact Hr|].
      split; [apply extends_refl|]. apply (same_elements_conv h s f); auto. }
    unfold no_shortcut, fo_unspecified, is_default in D.
    destruct s; try (exfalso; apply D; destruct c; exact I);
      destruct Hcl as [->|[->|[->| ->]]]; try (exfalso; apply D; exact I); cbn [flat_fromobject];
      unfold fo_unspecified, buffer_fromobject, strided_fromobject, coo_fromobject, flatcoo_fromobject; cbn [is_default bind];
      try (destruct Self as (t & h' & S1 & S2 & S3); exists t, h'; split; [exact S1|]; split; [exact (S2 I)|exact S3]).
    + destruct Hr as (E & HE & Hf).
      destruct (flatcoo_of_coo_ok h shape indices data E HE) as (ind & d' & h' & E1 & E2 & E3 & E4 & E5).
      rewrite E1. eexists _, _. split; [reflexivity|]. split; [exact I|]. split; [exact E4|].
      assert (Hr2 : repr h' (SFlatCOO shape ind d') (fun i => conv_value (bunspec data) u' (f i))).
      { exists E. split; [exact E3|]. cbn [shape_of unspecified_of] in *. intros i Hi. rewrite E4. unfold u'. rewrite conv_value_id. now apply Hf. }
      split; [eexists; exact Hr2|]. split; [exact E2|].
      apply (same_elements_conv h _ f); [exists E; split; assumption|reflexivity|exact Hr2].
    + destruct Hx as [Hx|Hx]; congruence.
Qed.
Print Assumptions C42_conversions_partial.

Definition nested_2x0 : pyval := VSeq [VSeq []; VSeq []].
(** [[], []] cannot be sliced in any class nor converted from FlatCOO to COO. *)
Theorem C42_empty_arrays_refuted :
  forall c, In c [CStrided; CCOO; CFlatCOO; CDM] ->
    exists s h, fromobject c [] (SrcSeq nested_2x0) fo_default = Ok (s, h) /\ shape_of s = [2; 0]
      /\ getitem h s everything = Raise (match c with CCOO | CFlatCOO => AssertionError | _ => IndexError end)
      /\ (c = CFlatCOO -> as_storage CCOO h s None = Raise AssertionError).
Proof.
  intros c [<-|[<-|[<-|[<-|[]]]]]; eexists _, _; (split; [vm_compute; reflexivity|]); (split; [reflexivity|]);
    (split; [vm_compute; reflexivity|]); intros E; try discriminate E; vm_compute; reflexivity.
Qed.
Print Assumptions C42_empty_arrays_refuted.

(** An integer or a slice for an axis of length 0 raises ZeroDivisionError, in
    every class but Buffer and DM and for every array, well-formed or not. *)
Fixpoint touches_empty (items : list ind) (shape : list Z) : Prop :=
  match items, shape with
  | i :: r, n :: sh => (n = 0 /\ i <> INone) \/ touches_empty r sh
  | _, _ => False
  end.

Lemma nitems_reduced s n : exists c, nitems_r (reduced s n) = Ok c.
Proof.
  assert (K : forall r, r = RSl 0 0 1 \/ r_step r <> 0 -> exists c, nitems_r r = Ok c).
  { intros r [->|H]; [eexists; reflexivity|]. unfold nitems_r, pydiv. destruct (r_stop r =? r_start r); [eauto|].
    replace (Z.abs (r_step r) =? 0) with false by lia. cbn [bind].
    replace (r_step r =? 0) with false by lia. cbn [bind]. eauto. }
  apply K. unfold reduced.
  match goal with |- context [match ?x with pair y z => _ end] => destruct x as [[a b] c] end.
  destruct ((b - a) * c <=? 0) eqn:E; [now left|right]. cbn [r_step]. intros ->. lia.
Qed.

Lemma normalize_tuple_empty : forall l sh, touches_empty l sh -> Forall ok_item l -> (length l <= length sh)%nat ->
  normalize_tuple l sh = Raise ZeroDivisionError
  \/ exists nix, normalize_tuple l sh = Ok nix
       /\ forall st off, length st = length sh -> index_strided nix sh st off = Raise ZeroDivisionError.
Proof.
  assert (N : forall l sh, Forall ok_item l -> (length l <= length sh)%nat ->
     normalize_tuple l sh = Raise ZeroDivisionError \/ exists nix, normalize_tuple l sh = Ok nix).
  { induction l as [|i l IH]; intros sh Hok Hl; cbn [normalize_tuple]; [right; eauto|].
    destruct sh as [|n sh]; [cbn in Hl; lia|]. inversion Hok as [|? ? Hi Hok']; subst.
    assert (Hl' : (length l <= length sh)%nat) by (cbn in Hl; lia).
    destruct (IH sh Hok' Hl') as [E|[nix E]]; destruct i; try contradiction; cbn [bind];
      try (unfold pymod; destruct (n =? 0); cbn [bind]); rewrite ?E; cbn [bind]; eauto. }
  induction l as [|i l IH]; intros sh Ht Hok Hl; [destruct Ht|]. destruct sh as [|n sh]; [destruct Ht|].
  inversion Hok as [|? ? Hi Hok']; subst. assert (Hl' : (length l <= length sh)%nat) by (cbn in Hl; lia).
  cbn [normalize_tuple touches_empty] in *. destruct Ht as [[-> Hi']|Ht].
  - destruct i; try contradiction.
    + now left.
    + destruct (N l sh Hok' Hl') as [E|[nix E]]; rewrite E; cbn [bind]; [now left|right].
      eexists. split; [reflexivity|]. intros [|x st] off Hs; [discriminate|]. reflexivity.
  - destruct (IH sh Ht Hok' Hl') as [E|(nix & E & En)].
    + left. destruct i; try contradiction; cbn [bind]; try (unfold pymod; destruct (n =? 0); cbn [bind]);
        rewrite ?E; reflexivity.
    + destruct i; try contradiction; cbn [bind].
      * unfold pymod. destruct (n =? 0); cbn [bind]; [now left|]. rewrite E. cbn [bind]. right. eexists.
        split; [reflexivity|]. intros [|x st] off Hs; [discriminate|]. cbn [index_strided]. apply En. now injection Hs.
      * rewrite E. cbn [bind]. right. eexists. split; [reflexivity|]. intros [|x st] off Hs; [discriminate|].
        cbn [index_strided]. unfold pymod. destruct (n =? 0); [reflexivity|]. cbn [bind].
        assert (K : exists c, nitems_r (reduced s n) = Ok c) by apply nitems_reduced.
        destruct K as [c ->]. cbn [bind]. rewrite En by now injection Hs. reflexivity.
      * rewrite E. cbn [bind]. right. eexists. split; [reflexivity|]. intros [|x st] off Hs; [discriminate|].
        cbn [index_strided]. rewrite En by now injection Hs. reflexivity.
Qed.

Lemma ints_index_strided : forall nix sh st off, forallb is_int_item nix = true ->
  exists g, index_strided nix sh st off = Ok g.
Proof.
  induction nix as [|i nix IH]; intros [|n sh] [|x st] off H; cbn [index_strided]; eauto.
  cbn in H. apply andb_true_iff in H as [H1 H2]. destruct i; try discriminate. now apply IH.
Qed.

Theorem C42_zero_axis_refuted : forall h s ix,
  match s with SStrided t => length (sstrides t) = length (sshape t) | SBuffer _ | SDM _ _ _ _ _ _ => False | _ => True end ->
  ok_index ix (shape_of s) -> touches_empty (index_items ix) (shape_of s) ->
  getitem h s ix = Raise ZeroDivisionError.
Proof.
  intros h s ix Hc [Hok Hl] Ht.
  assert (Hl' : (length (index_items ix) <= length (shape_of s))%nat).
  { destruct Hl as [->|Hl]; [|exact Hl]. cbn in Ht. destruct (shape_of s); [contradiction|cbn; lia]. }
  assert (E : normalize_index ix (shape_of s) = normalize_tuple (index_items ix) (shape_of s)).
  { destruct ix as [[z|sl| |]|l]; [| | | |reflexivity]; destruct (shape_of s) as [|n sh]; try contradiction.
    - reflexivity.
    - reflexivity.
    - cbn in Ht. destruct Ht as [[_ Ht]|[]]. congruence.
    - inversion Hok; contradiction. }
  assert (Hst : length (strides_of s) = length (shape_of s)).
  { destruct s; cbn [strides_of shape_of] in *; try contradiction; auto; apply make_strides_length. }
  destruct (normalize_tuple_empty _ _ Ht Hok Hl') as [N|(nix & N & Ni)]; rewrite <- E in N.
  - destruct s; try contradiction; cbn [getitem shape_of] in *; unfold strided_getitem; rewrite N; reflexivity.
  - assert (El : is_element_index nix (shape_of s) = false).
    { unfold is_element_index. destruct (forallb is_int_item nix) eqn:Ei; [|apply andb_false_r].
      destruct (ints_index_strided nix (shape_of s) (strides_of s) 0 Ei) as [g Eg]. rewrite Ni in Eg by exact Hst. discriminate. }
    specialize (Ni (strides_of s) 0 Hst).
    destruct s; try contradiction; cbn [getitem shape_of strides_of] in *; unfold strided_getitem; rewrite N; cbn [bind];
      rewrite El, Ni; reflexivity.
Qed.
Print Assumptions C42_zero_axis_refuted.

(** A Strided array of shape (2, 0): v[:, ::] raises. *)
Example C42_case_zero_axis : ok_index (XTuple [INone; ISlice (Sl None None None)]) [2; 0]
  /\ touches_empty [INone; ISlice (Sl None None None)] [2; 0].
Proof. split; [split; [repeat constructor; discriminate|right; cbn; lia]|]. cbn. right. left. split; [reflexivity|discriminate]. Qed.

Example C42_case :
  regular [2; 0] nested_2x0 /\ In 0 [2; 0]
  /\ ('(s, h) <- fromobject CCOO [] (SrcSeq nested_2x3) (fo_unspecified (Some (VInt 0))) ;;
      '(v, h1) <- getitems h s [XTuple [INone; ISlice (Sl (Some 2) (Some 1) None)]] ;;
      n <- size_of v ;; '(t, h2) <- as_storage CStrided h1 v None ;; e <- elements h2 t ;; Ok (shape_of v, n, shape_of t, e))
     = Ok ([2; 0], 0, [2; 0], []).
Proof.
  split; [split; [reflexivity|]; split; [lia|]; repeat constructor|].
  split; [right; left; reflexivity|]. vm_compute. reflexivity.
Qed.

(** ** C46 *)

(** as_C2SR raises AttributeError (C2SR has no fromobject), for every storage. *)
Theorem C46_as_C2SR_refuted : forall h s u, as_storage CC2SR h s u = Raise AttributeError.
Proof. reflexivity. Qed.
Print Assumptions C46_as_C2SR_refuted.

(** A C2SR array can be constructed, copied, compared and printed, but none of
    its elements can be read or written: s[ix] raises NotImplementedError for
    every valid index of a non-empty array (and some exception for every other
    index), elements() and the conversions to the other classes raise, and so
    does s[ix] = x, without changing anything. *)
Lemma make_strides_nonzero sh : positive sh -> Forall (fun x => x <> 0) (make_strides sh).
Proof.
  intros H. rewrite <- c_strides_make. induction H as [|n sh Hn H IH]; cbn [c_strides]; constructor; auto.
  assert (0 < fold_right Z.mul 1 sh); [|lia]. clear - H. induction H; cbn [fold_right]; lia.
Qed.
Lemma n_strides_nonzero ix shape : normal_index ix shape -> forall st, Forall (fun x => x <> 0) st ->
  length st = length shape -> Forall (fun x => x <> 0) (n_strides ix st).
Proof.
  induction 1 as [|i n ix sh Hi _ IH]; intros [|a st] F L; try discriminate; [constructor|]. inversion F; subst. injection L as L.
  destruct i as [z|r|]; cbn [n_strides]; [now apply IH| |constructor; [assumption|now apply IH]].
  constructor; [|now apply IH]. destruct Hi as [->|[Hi|Hi]]; cbn in *; nia.
Qed.
Lemma init_slice ix sh st off nix : positive sh -> ok_index ix sh ->
  normalize_index ix sh = Ok nix -> index_strided nix sh (make_strides sh) 0 = Ok (slice_shape ix sh, st, off) ->
  exists sd, init_diophantine st (Some (slice_shape ix sh)) = Ok sd.
Proof.
  intros Hp Hix En Es. rewrite (normalize_index_ok ix sh Hp Hix) in En. injection En as <-.
  rewrite index_strided_ok in Es by (assumption || now apply norm_items_normal || now rewrite make_strides_length). injection Es as E1 <- _.
  pose proof (n_strides_nonzero _ _ (norm_items_normal (index_items ix) sh Hp) _ (make_strides_nonzero sh Hp) (make_strides_length sh)) as N.
  pose proof (n_strides_length (norm_items (index_items ix) sh) sh (make_strides sh) (make_strides_length sh)) as L.
  rewrite E1 in L. destruct (n_strides _ _) as [|a0 [|a1 r]]; [eexists; reflexivity|eexists; reflexivity|].
  destruct (init_diophantine_ok a0 (a1 :: r) (slice_shape ix sh) N) as (sd & _ & E & _); [discriminate|rewrite <- L; cbn; lia|].
  now exists sd.
Qed.

Theorem C46_c2sr_elements_refuted : forall h sh channels rl rp col d s,
  positive sh -> s = SC2SR sh channels rl rp col d ->
  (forall ix, exists e, getitem h s ix = Raise e)
  /\ (forall ix, ok_index ix sh -> getitem h s ix = Raise NotImplementedError)
  /\ (forall ix value, exists e, setitem h s ix value = (h, Raise e))
  /\ (forall ix value, ok_index ix sh -> setitem h s ix value = (h, Raise NotImplementedError))
  /\ elements h s = Raise NotImplementedError
  /\ (forall value, equal h s value = Raise NotImplementedError).
Proof.
  intros h sh channels rl rp col d s Hp ->.
  split; [|split; [|split; [|split; [|split]]]].
  - intros ix. cbn [getitem shape_of strides_of]. destruct (normalize_index ix sh) as [nix|e]; cbn [bind]; [|eauto].
    destruct (is_element_index nix sh); [cbn; eauto|].
    destruct (index_strided _ _ _ _) as [[[a b] c]|e]; cbn [bind data_buffer]; eauto.
  - intros ix Hix. destruct (index_strided_full ix sh (make_strides sh) 0 Hp Hix) as (nix & st & off & En & Es & _).
    { now rewrite make_strides_length. }
    cbn [getitem shape_of strides_of]. rewrite En. cbn [bind].
    destruct (is_element_index nix sh); [reflexivity|]. rewrite Es. reflexivity.
  - intros ix value. cbn [setitem shape_of strides_of]. unfold eval at 1.
    destruct (normalize_index ix sh) as [nix|e]; cbn [bind]; [|eauto].
    destruct (index_strided _ _ _ _) as [[[a b] c]|e]; cbn [bind data_buffer]; [|eauto].
    unfold slice_gen, eval. destruct (init_diophantine _ _); cbn [sparse_gen]; eauto.
  - intros ix value Hix. destruct (index_strided_full ix sh (make_strides sh) 0 Hp Hix) as (nix & st & off & En & Es & _).
    { now rewrite make_strides_length. }
    cbn [setitem shape_of strides_of]. unfold eval at 1. rewrite En. cbn [bind]. rewrite Es. cbn [bind data_buffer].
    destruct (init_slice ix sh st off nix Hp Hix En Es) as (sd & Ed). unfold slice_gen, eval. rewrite Ed. reflexivity.
  - reflexivity.
  - intros value. reflexivity.
Qed.
Print Assumptions C46_c2sr_elements_refuted.

Lemma c2sr_collect h sh channels rl rp col d su u : length sh = 2%nat -> positive sh ->
  collect (get_value h (SrcSto (SC2SR sh channels rl rp col d))) su u (cart sh) = Raise NotImplementedError.
Proof.
  intros Hl Hp. destruct sh as [|m [|n [|]]]; try discriminate.
  assert (Hb : in_box [0; 0] [m; n]).
  { inversion Hp as [|? ? ? Hp']; inversion Hp'; subst. repeat constructor; lia. }
  assert (Hc : forall i, In i (cart [m; n]) -> in_box i [m; n]) by (intros i; apply In_cart).
  destruct (cart [m; n]) as [|i r] eqn:E.
  - apply In_cart in Hb. rewrite E in Hb. contradiction.
  - cbn [collect]. assert (Hi : in_box i [m; n]) by (apply Hc; now left).
    replace (get_value _ _ i) with (@Raise pyval NotImplementedError); [reflexivity|].
    pose proof Hi as Hi'. inversion Hi' as [|? ? ? ? ? Hi'']; subst. cbn [get_value]. unfold get_elem.
    cbn [getitem shape_of]. rewrite normalize_ints by assumption. cbn [bind].
    rewrite is_element_ints by (now apply in_box_len). reflexivity.
Qed.

(** No conversion from a non-empty C2SR array succeeds either. *)
Theorem C46_from_c2sr_refuted : forall h sh channels rl rp col d u c,
  length sh = 2%nat -> positive sh -> In c [CBuffer; CStrided; CCOO; CFlatCOO; CCSR] ->
  as_storage c h (SC2SR sh channels rl rp col d) u = Raise NotImplementedError.
Proof.
  intros h sh channels rl rp col d u c Hl Hp Hc. cbn [In] in Hc.
  destruct Hc as [<-|[<-|[<-|[<-|[<-|[]]]]]]; cbn [as_storage flat_fromobject];
    unfold buffer_fromobject, strided_fromobject, csr_fromobject, coo_fromobject, flatcoo_fromobject, strided_build, buffer_build,
      coo_build, flatcoo_build;
    change (fo_get h (SrcSto (SC2SR sh channels rl rp col d)) (fo_unspecified u))
      with (fun i => get_value h (SrcSto (SC2SR sh channels rl rp col d)) i);
    cbn [is_default fo_unspecified fo_get_shape fo_shape get_shape shape_of];
    destruct u; now rewrite c2sr_collect.
Qed.
Print Assumptions C46_from_c2sr_refuted.

(** What a C2SR array can do: its copy is equal to it, with data of its own. *)
Theorem C46_c2sr_copy : forall h sh channels rl rp col d lens ptrs cols vs,
  length sh = 2%nat -> nth 0 sh 0 = bsize rl -> bsize rl = bsize rp ->
  holds h rl lens -> holds h rp ptrs -> holds h col cols -> holds h d vs ->
  let s := SC2SR sh channels rl rp col d in
  exists d', copy h s None = Ok (SC2SR sh channels rl rp col d', h ++ [vs])
    /\ baddr d' = length h /\ storage_eq (h ++ [vs]) s (SC2SR sh channels rl rp col d') = Ok true.
Proof.
  intros h sh channels rl rp col d lens ptrs cols vs Hl Hn Hrp H1 H2 H3 H4 s.
  destruct sh as [|m [|n [|]]]; try discriminate. cbn [nth] in Hn. subst m.
  assert (E : copy h s None = Ok (SC2SR [bsize rl; n] channels rl rp col (Buf (zlen vs) 0 (length h) (bunspec d)), h ++ [vs])).
  { unfold s. cbn [copy]. rewrite (buf_copy_ok h d vs None H4). cbn [bind]. rewrite map_conv_id.
    change (zlen [bsize rl; n] =? 2) with true. cbn [assert_ bind]. rewrite <- Hrp, Z.eqb_refl. cbn [assert_ bind].
    unfold pyget. cbn [Z.ltb Z.compare Z.to_nat nth_error bind]. rewrite Z.eqb_refl. reflexivity. }
  eexists. split; [exact E|]. split; [reflexivity|]. unfold s. cbn [storage_eq].
  rewrite Z.eqb_refl. assert (L : lex_eqb [bsize rl; n] [bsize rl; n] = true) by (cbn; now rewrite !Z.eqb_refl).
  rewrite L. cbn [andb].
  assert (HE : extends h (h ++ [vs])) by (exists [vs]; reflexivity).
  assert (R : forall b l, holds h b l -> buf_eq (h ++ [vs]) b b = Ok true).
  { intros b l Hb. assert (Hb' : holds (h ++ [vs]) b l) by (eapply holds_extends; eassumption).
    destruct (buf_eq_ok _ b b l l Hb' Hb') as (r & -> & Hr). f_equal. now apply Hr. }
  rewrite (R _ _ H1), (R _ _ H2), (R _ _ H3). cbn [andM bind].
  assert (Hd : holds (h ++ [vs]) d vs) by (eapply holds_extends; eassumption).
  assert (Hd' : holds (h ++ [vs]) (Buf (zlen vs) 0 (length h) (bunspec d)) vs).
  { apply holds_new. }
  destruct (buf_eq_ok _ _ _ _ _ Hd Hd') as (r & -> & Hr). f_equal. now apply Hr.
Qed.
Print Assumptions C46_c2sr_copy.

(** The 2x3 array [[7, 0, 0], [0, 0, 8]] in this format. *)
Example C46_c2sr_case :
  let h := [[VInt 1; VInt 1]; [VInt 0; VInt 1]; [VInt 0; VInt 2]; [VInt 7; VInt 8]] in
  let s := SC2SR [2; 3] 1 (Buf 2 0 0%nat VNone) (Buf 2 0 1%nat VNone) (Buf 2 0 2%nat VNone) (Buf 2 0 3%nat (VInt 0)) in
  positive [2; 3] /\ length [2; 3] = 2%nat
  /\ holds h (Buf 2 0 3%nat (VInt 0)) [VInt 7; VInt 8]
  /\ ok_index (XTuple [IInt 1; IInt 2]) [2; 3]
  /\ get_elem h s [1; 2] = Raise NotImplementedError
  /\ setitem h s (XTuple [IInt 1; ISlice (Sl None None None)]) (SrcSeq (VSeq [VInt 1; VInt 1; VInt 1])) = (h, Raise NotImplementedError)
  /\ storage_eq h s s = Ok true.
Proof.
  cbn zeta. split; [repeat constructor|]. split; [reflexivity|]. split; [|].
  { eexists. split; [reflexivity|]. repeat split; cbn; try lia. }
  split; [split; [repeat constructor|right; cbn; lia]|].
  repeat split; vm_compute; reflexivity.
Qed.

(** ** C47 *)

Lemma seq_get_nested v : forall i x, seq_get v i = Ok x -> Forall (fun k => 0 <= k) i -> nested_at v i = Some x.
Proof.
  intros i. revert v. induction i as [|k i IH]; intros v x E Hi; cbn [seq_get nested_at] in *.
  - injection E as ->. reflexivity.
  - inversion Hi; subst. destruct v as [| | |l]; try discriminate. apply bind_ok in E. destruct E as (w & Ew & Ex).
    unfold pyget in Ew. replace (k <? 0) with false in * by lia. cbn [negb] in *.
    replace (k <? 0) with false in Ew by lia.
    destruct (nth_error l (Z.to_nat k)) as [w'|]; [|discriminate]. injection Ew as ->. now apply IH.
Qed.

Lemma collect_inv get su u idxs vs : collect get su u idxs = Ok vs -> forall i, In i idxs -> exists x, get i = Ok x.
Proof.
  revert vs. induction idxs as [|j r IH]; intros vs E i Hi; [contradiction|]. cbn [collect] in E.
  apply bind_ok in E. destruct E as (x & Ex & E). apply bind_ok in E. destruct E as (w & Ew & _).
  destruct Hi as [->|Hi]; eauto.
Qed.

Lemma csr_of_coo_shape h sh ind d s h' : csr_of_coo h sh ind d = Ok (s, h') -> shape_of s = sh.
Proof.
  unfold csr_of_coo. intros E. do 5 (apply bind_ok in E; destruct E as (? & _ & E)).
  apply bind_ok in E; destruct E as ([? ?] & _ & E). apply bind_ok in E; destruct E as (? & _ & E).
  do 3 (apply bind_ok in E; destruct E as ([? ?] & _ & E)). apply bind_ok in E. destruct E as (r & Er & E).
  injection E as <- <-. unfold mk_csr in Er. do 4 (apply bind_ok in Er; destruct Er as (? & _ & Er)).
  now injection Er as <-.
Qed.

(** If fromobject accepts a nested list then the list has an element at every
    index of the array: rows that are too short raise. *)
Theorem C47_short_rows_partial : forall c h v u s h',
  c <> CDM -> c <> CBuffer ->
  fromobject c h (SrcSeq v) (fo_unspecified u) = Ok (s, h') ->
  forall i, in_box i (shape_of s) -> exists x, nested_at v i = Some x.
Proof.
  intros c h v u s h' Hd Hb E.
  assert (K : (exists vs, collect (fo_get h (SrcSeq v) (fo_unspecified u)) VNone (fo_get_unspec (SrcSeq v) (fo_unspecified u))
                 (cart (seq_shape v)) = Ok vs) /\ shape_of s = seq_shape v).
  { destruct c; try congruence; cbn [fromobject flat_fromobject] in E; try discriminate.
    - unfold strided_fromobject, strided_build, buffer_build in E. apply bind_ok in E. destruct E as ([t h1] & E & E').
      apply bind_ok in E. destruct E as ([b h2] & E & E2). apply bind_ok in E. destruct E as (vs & Ev & _).
      split; [eauto|]. injection E' as <- <-. apply bind_ok in E2. destruct E2 as (t' & Et & E2). injection E2 as <- <-.
      unfold mk_strided in Et. apply bind_ok in Et. destruct Et as (? & _ & Et). now injection Et as <-.
    - unfold coo_fromobject, coo_build in E. apply bind_ok in E. destruct E as (vs & Ev & E). split; [eauto|].
      apply bind_ok in E. destruct E as ([d h1] & _ & E). apply bind_ok in E. destruct E as ([ind h2] & _ & E).
      apply bind_ok in E. destruct E as (t & Et & E). injection E as <- <-. unfold mk_coo in Et.
      apply bind_ok in Et. destruct Et as (? & _ & Et). apply bind_ok in Et. destruct Et as (? & _ & Et). now injection Et as <-.
    - unfold flatcoo_fromobject, flatcoo_build in E. apply bind_ok in E. destruct E as (vs & Ev & E). split; [eauto|].
      apply bind_ok in E. destruct E as (fs & _ & E).
      apply bind_ok in E. destruct E as ([d h1] & _ & E). apply bind_ok in E. destruct E as ([ind h2] & _ & E).
      apply bind_ok in E. destruct E as (t & Et & E). injection E as <- <-. unfold mk_flatcoo in Et.
      apply bind_ok in Et. destruct Et as (? & _ & Et). now injection Et as <-.
    - unfold csr_fromobject, coo_fromobject, coo_build in E. apply bind_ok in E. destruct E as ([c h0] & E & E').
      apply bind_ok in E. destruct E as (vs & Ev & E). split; [eauto|].
      apply bind_ok in E. destruct E as ([d h1] & _ & E). apply bind_ok in E. destruct E as ([ind h2] & _ & E).
      apply bind_ok in E. destruct E as (t & Et & E). injection E as <- <-. unfold mk_coo in Et.
      apply bind_ok in Et. destruct Et as (? & _ & Et). apply bind_ok in Et. destruct Et as (? & _ & Et). injection Et as <-.
      exact (csr_of_coo_shape _ _ _ _ _ _ E'). }
  destruct K as [[vs Ev] Hs]. intros i Hi. rewrite Hs in Hi.
  destruct (collect_inv _ _ _ _ _ Ev i) as (x & Ex); [now apply In_cart|].
  unfold fo_get, fo_unspecified in Ex. cbn [fo_gsi get_value] in Ex. exists x.
  apply seq_get_nested; [|eapply in_box_nonneg; eassumption].
  unfold seq_value in Ex. destruct i; [exact Ex|]. destruct v; try discriminate. exact Ex.
Qed.
Print Assumptions C47_short_rows_partial.

(** [[1, 2], [3, 4, 5]] is accepted by every class; element 5 is dropped. *)
Definition ragged : pyval := VSeq [VSeq [VInt 1; VInt 2]; VSeq [VInt 3; VInt 4; VInt 5]].
Theorem C47_ragged_refuted :
  (forall sh, ~ regular sh ragged)
  /\ forall c, In c [CStrided; CCOO; CFlatCOO; CCSR; CDM] ->
      exists s h, fromobject c [] (SrcSeq ragged) fo_default = Ok (s, h) /\ shape_of s = [2; 2]
        /\ elements h s = Ok [(KTup [0; 0], VInt 1); (KTup [0; 1], VInt 2); (KTup [1; 0], VInt 3); (KTup [1; 1], VInt 4)].
Proof.
  split.
  - intros [|n [|m [|k sh]]] H; cbn in H; try tauto.
    + destruct H as (_ & _ & H). inversion H as [|? ? H1 _]; subst. exact H1.
    + destruct H as (_ & _ & H). inversion H as [|? ? H1 H2]; subst. inversion H2 as [|? ? H3 _]; subst.
      cbn in H1, H3. destruct H1 as (A & _), H3 as (B & _). unfold zlen in *. cbn in *. lia.
    + destruct H as (_ & _ & H). inversion H as [|? ? H1 H2]; subst. cbn in H1. destruct H1 as (_ & _ & H1).
      inversion H1 as [|? ? H3 _]; subst. exact H3.
  - intros c [<-|[<-|[<-|[<-|[<-|[]]]]]]; eexists _, _; (split; [vm_compute; reflexivity|]);
      (split; [reflexivity|]); vm_compute; reflexivity.
Qed.
Print Assumptions C47_ragged_refuted.

(** [[1, 2], [3]] raises, as C47_short_rows_partial says. *)
Example C47_case :
  fromobject CStrided [] (SrcSeq (VSeq [VSeq [VInt 1; VInt 2]; VSeq [VInt 3]])) fo_default = Raise IndexError
  /\ fromobject CCSR [] (SrcSeq (VSeq [VSeq [VInt 1; VInt 2]; VSeq [VInt 3]])) fo_default = Raise IndexError
  /\ nested_at (VSeq [VSeq [VInt 1; VInt 2]; VSeq [VInt 3]]) [1; 1] = None.
Proof. repeat split; vm_compute; reflexivity. Qed.

(** C108: the mapping of axes described in GentleIntroductionToGCS.md (lines 295-401) and in
    pytorch-crs-dm-proposal.md (lines 47-85). *)
From Coq Require Import Sorting.Sorted Permutation ZifyBool.
From Verif Require Import Py SliceTools Basics Storage Spec SliceFacts IndexFacts
  CompressFacts ReduceFacts SolverFacts SolveFacts Repr ReprFacts ViewFacts BuildFacts SparseFacts
  ConvFacts FromFacts DMFacts ReadFacts MapFacts ChainFacts WriteFacts EqFacts PropRead.
From Coq Require Import List.

(** * The text of the introduction *)

(** shape[d], indices[d] *)
Definition axis (l : list Z) (d : Z) : Z := nth (Z.to_nat d) l 0.

(** The partitioning tuple cuts the permuted axes: part [k] is
    dimensions[p[k]:p[k+1]] with p = (0,) + partitioning + (N,). *)
Definition part (dims partitioning : list Z) (k : nat) : list Z :=
  let p := 0 :: partitioning ++ [zlen dims] in
  firstn (Z.to_nat (nth (S k) p 0 - nth k p 0)) (skipn (Z.to_nat (nth k p 0)) dims).
Definition parts (dims partitioning : list Z) : list (list Z) :=
  map (part dims partitioning) (seq 0 (S (length partitioning))).

(** The stride of the [p]-th axis of a part: the product of the lengths of the
    axes after it.  This is what the examples of the introduction show
    (row_strides = [6*3, 3, 1]); for the formula as written see below. *)
Definition stride (shape g : list Z) (p : nat) : Z := n_elements (map (axis shape) (skipn (S p) g)).

(** row_index = sum(row_strides[i] * indices[row_dimensions[i]], i=0, ..., Nr - 1) *)
Definition reduced (shape i g : list Z) : Z :=
  fold_right Z.add 0 (map (fun p => stride shape g p * axis i (nth p g 0)) (seq 0 (length g))).

(** row_strides[i] = product(shape[row_dimensions[k]], k=1, ..., Nr - 1 - i),
    to the letter. *)
Definition written_stride (shape g : list Z) (p : nat) : Z :=
  n_elements (map (fun k => axis shape (nth k g 0)) (seq 1 (length g - 1 - p))).
Definition written_reduced (shape i g : list Z) : Z :=
  fold_right Z.add 0 (map (fun p => written_stride shape g p * axis i (nth p g 0)) (seq 0 (length g))).

(** * Proofs *)

Lemma axis_znth l d : axis l d = znth d l.
Proof. reflexivity. Qed.

Lemma map_axis l g : map (axis l) g = gather l g.
Proof. reflexivity. Qed.

Lemma map_seq_shift {A} (f : nat -> A) a n : map f (seq (S a) n) = map (fun k => f (S k)) (seq a n).
Proof. rewrite <- seq_shift, map_map. reflexivity. Qed.

Lemma strides_spec shape g : make_strides (gather shape g) = map (stride shape g) (seq 0 (length g)).
Proof.
  induction g as [|d g IH]; [reflexivity|]. cbn [gather map make_strides length seq].
  f_equal.
  fold (gather shape g). rewrite IH, map_seq_shift. reflexivity.
Qed.

Lemma reduced_spec shape i g : zdot (gather i g) (make_strides (gather shape g)) = reduced shape i g.
Proof.
  unfold reduced. induction g as [|d g IH]; [reflexivity|].
  change (zdot (gather i (d :: g)) (make_strides (gather shape (d :: g))))
    with (znth d i * product (gather shape g) + zdot (gather i g) (make_strides (gather shape g))).
  rewrite IH. cbn [length seq map fold_right]. rewrite map_seq_shift.
  change (stride shape (d :: g) 0) with (product (gather shape g)).
  change (axis i (nth 0 (d :: g) 0)) with (znth d i). rewrite (Z.mul_comm (znth d i)). reflexivity.
Qed.

Lemma parts_from dims : forall ps a, Sorted Z.le (a :: ps) -> 0 <= a -> Forall (fun p => p <= zlen dims) (a :: ps) ->
  cut dims (a :: ps)
  = map (fun k => firstn (Z.to_nat (nth (S k) (a :: ps) 0 - nth k (a :: ps) 0)) (skipn (Z.to_nat (nth k (a :: ps) 0)) dims))
        (seq 0 (length ps)).
Proof.
  induction ps as [|b ps IH]; intros a Hs Ha Hf; [reflexivity|].
  change (cut dims (a :: b :: ps)) with (pyslice_list dims a b :: cut dims (b :: ps)).
  inversion Hs as [|? ? Hs' Hd]; subst. inversion Hd; subst. inversion Hf as [|? ? F1 F2]; subst. inversion F2; subst.
  cbn [length seq map nth]. f_equal; [apply pyslice_window; lia|].
  rewrite (IH b Hs') by (lia || assumption). rewrite map_seq_shift. reflexivity.
Qed.

Lemma sorted_le_app a l b : Sorted Z.le (a :: l) -> Forall (fun p => p <= b) (a :: l) -> Sorted Z.le (a :: l ++ [b]).
Proof.
  revert a. induction l as [|x l IH]; intros a Hs Hf; cbn [app].
  - inversion Hf; subst. repeat constructor. assumption.
  - inversion Hs as [|? ? Hs' Hd]; subst. inversion Hf; subst. constructor; [now apply IH|].
    inversion Hd; subst. now constructor.
Qed.

Lemma parts_spec dims partitioning n : zlen dims = n -> Sorted Z.le partitioning ->
  Forall (fun p => 0 <= p <= n) partitioning ->
  cut dims ([0] ++ partitioning ++ [n]) = parts dims partitioning.
Proof.
  intros Hn Hs Hf. unfold parts, part. rewrite Hn. cbn [app].
  rewrite parts_from.
  - rewrite app_length. cbn [length]. replace (length partitioning + 1)%nat with (S (length partitioning)) by lia. reflexivity.
  - apply sorted_le_app.
    + constructor; [exact Hs|]. destruct partitioning; constructor. inversion Hf; subst; lia.
    + constructor; [pose proof (zlen_nonneg dims); lia|]. eapply Forall_impl; [|exact Hf]. cbn beta. intros; lia.
  - lia.
  - constructor; [pose proof (zlen_nonneg dims); lia|]. apply Forall_app. split.
    + eapply Forall_impl; [|exact Hf]. cbn beta. intros; lia.
    + repeat constructor. lia.
Qed.

Lemma group_digits_at shape : forall gs r k g p, length r = length gs -> nth_error gs k = Some g -> (p < length g)%nat ->
  nth (length (concat (firstn k gs)) + p) (group_digits shape gs r) 0
  = (nth k r 0 / stride shape g p) mod axis shape (nth p g 0).
Proof.
  assert (U : forall g p x, (p < length g)%nat ->
    nth p (unravel x (gather shape g)) 0 = (x / stride shape g p) mod axis shape (nth p g 0)).
  { induction g as [|d g IH]; intros p x Hp; [cbn in Hp; lia|]. cbn [gather map unravel].
    fold (gather shape g). destruct p as [|p].
    - reflexivity.
    - cbn [nth]. rewrite IH by (cbn in Hp; lia). reflexivity. }
  induction gs as [|g0 gs IH]; intros r k g p Hl Hk Hp; [destruct k; discriminate|].
  destruct r as [|x r]; [discriminate|]. cbn [group_digits]. destruct k as [|k].
  - injection Hk as ->. cbn [firstn concat length Nat.add nth]. rewrite app_nth1 by (rewrite unravel_length, gather_length; lia).
    now apply U.
  - cbn [nth_error] in Hk. cbn [firstn concat nth]. rewrite app_length.
    rewrite app_nth2 by (rewrite unravel_length, gather_length; lia).
    rewrite unravel_length, gather_length. replace (length g0 + length (concat (firstn k gs)) + p - length g0)%nat with (length (concat (firstn k gs)) + p)%nat by lia.
    apply IH; auto.
Qed.

Lemma gather_at i : forall gs k g p, nth_error gs k = Some g -> (p < length g)%nat ->
  nth (length (concat (firstn k gs)) + p) (gather i (concat gs)) 0 = axis i (nth p g 0).
Proof.
  induction gs as [|g0 gs IH]; intros k g p Hk Hp; [destruct k; discriminate|].
  cbn [concat]. rewrite gather_app. destruct k as [|k].
  - injection Hk as ->. cbn [firstn concat length Nat.add]. rewrite app_nth1 by (rewrite gather_length; lia).
    unfold gather. rewrite (nth_indep _ 0 (znth 0 i)) by (rewrite map_length; lia).
    rewrite (map_nth (fun d => znth d i)). reflexivity.
  - cbn [firstn concat]. rewrite app_length, app_nth2 by (rewrite gather_length; lia).
    rewrite gather_length. replace (length g0 + length (concat (firstn k gs)) + p - length g0)%nat with (length (concat (firstn k gs)) + p)%nat by lia.
    now apply IH.
Qed.

Lemma group_index_spec shape gs i : group_index shape gs i = map (reduced shape i) gs.
Proof. unfold group_index. apply map_ext. intros g. apply reduced_spec. Qed.

Lemma group_shape_spec shape gs : group_shape shape gs = map (fun g => n_elements (map (axis shape) g)) gs.
Proof. unfold group_shape. apply map_ext. reflexivity. Qed.

(** create_reduction_metadata, reduction and promotion compute the parts, the
    strides, the reduced shape, the reduced indices and the promoted indices of the
    introduction.  reduction does so for every tuple of the right length, also out
    of range; promotion also. *)
Theorem C108_formulas : forall shape dims partitioning,
  Permutation dims (zseq (zlen shape)) ->
  Sorted Z.le partitioning -> Forall (fun p => 0 <= p <= zlen shape) partitioning ->
  zlen partitioning + 1 <= zlen shape ->
  let gs := parts dims partitioning in
  exists md, create_reduction_metadata shape dims partitioning = Ok md
    /\ map rg_dims md = gs
    /\ map rg_strides md = map (fun g => map (stride shape g) (seq 0 (length g))) gs
    /\ reduction_shape md = map (fun g => n_elements (map (axis shape) g)) gs
    /\ (forall i, length i = length shape -> reduction md i = Ok (map (reduced shape i) gs))
    /\ (positive shape -> forall r, length r = length gs ->
          exists i, promotion (zlen shape) md r = Ok i /\ length i = length shape
            /\ forall k g p, nth_error gs k = Some g -> (p < length g)%nat ->
                 axis i (nth p g 0) = (nth k r 0 / stride shape g p) mod axis shape (nth p g 0)).
Proof.
  intros shape dims partitioning Hperm Hs Hf Hl gs.
  assert (Hz : zlen dims = zlen shape).
  { unfold zlen. rewrite (Permutation_length Hperm), zseq_length_nat. unfold zlen. now rewrite Nat2Z.id. }
  pose proof (parts_spec dims partitioning _ Hz Hs Hf) as Hc. fold gs in Hc.
  assert (Hcc : concat gs = dims) by (rewrite <- Hc; apply concat_cut_partition; [exact Hz|split; assumption]).
  assert (Hp : Permutation (concat gs) (zseq (zlen shape))) by now rewrite Hcc.
  pose proof (perm_axes _ _ Hp) as Ha.
  exists (md_of shape gs). split.
  { rewrite <- Hc. apply create_reduction_metadata_ok; [now rewrite Hc|exact Hl]. }
  split. { unfold md_of. rewrite map_map. cbn [rg_dims]. apply map_id. }
  split. { unfold md_of. rewrite map_map. cbn [rg_strides]. apply map_ext. intros g. apply strides_spec. }
  split. { unfold reduction_shape, md_of. rewrite map_map. cbn [rg_shape]. apply group_shape_spec. }
  split.
  - intros i Hi. rewrite reduction_ok; [now rewrite group_index_spec|]. unfold zlen in *. now rewrite Hi.
  - intros Hpos r Hr. rewrite promotion_promote by assumption.
    destruct (promote_index_ok shape gs (repeat 0 (length gs)) r Hpos Hp) as (i & E & Hi & Hg);
      [apply repeat_length|exact Hr|].
    exists i. split; [exact E|]. split; [unfold zlen in Hi; lia|]. intros k g p Hk Hpl.
    rewrite map2_sub_zeros in Hg by exact Hr.
    rewrite <- (gather_at i gs k g p Hk Hpl), Hg. now apply group_digits_at.
Qed.
Print Assumptions C108_formulas.

(** The example of the introduction, lines 359-385. *)
Example C108_formulas_ex :
  parts [2; 4; 1; 3; 0] [3] = [[2; 4; 1]; [3; 0]]
  /\ Permutation [2; 4; 1; 3; 0] (zseq (zlen [2; 3; 4; 5; 6]))
  /\ map (stride [2; 3; 4; 5; 6] [2; 4; 1]) [0; 1; 2]%nat = [18; 3; 1]
  /\ map (stride [2; 3; 4; 5; 6] [3; 0]) [0; 1]%nat = [2; 1]
  /\ (md <- create_reduction_metadata [2; 3; 4; 5; 6] [2; 4; 1; 3; 0] [3] ;; Ok (map rg_strides md))
     = Ok [[18; 3; 1]; [2; 1]].
Proof.
  split; [reflexivity|]. split; [|repeat split].
  apply NoDup_Permutation; [repeat constructor; cbn; intuition lia|apply NoDup_zseq|].
  intros x. rewrite In_zseq. cbn. lia.
Qed.

(** The formula for the strides as it is written is the right one for parts of at
    most two axes (its value at the end of longer parts is right too) ... *)
Theorem C108_written_formula : forall shape g p, (p < length g)%nat ->
  ((length g <= 2)%nat \/ p = 0%nat \/ S p = length g) -> written_stride shape g p = stride shape g p.
Proof.
  assert (A : forall (shape g : list Z) (d : Z),
    map (fun k => axis shape (nth k (d :: g) 0)) (seq 1 (length g)) = map (axis shape) g).
  { intros shape g d. rewrite map_seq_shift. cbn [nth].
    induction g as [|x g IH]; [reflexivity|]. cbn [length seq map nth]. f_equal. rewrite map_seq_shift. exact IH. }
  intros shape g p Hp H. unfold written_stride, stride.
  assert (L : p = 0%nat \/ S p = length g) by lia. destruct L as [->|L].
  - destruct g as [|d g]; [cbn in Hp; lia|]. cbn [length skipn]. replace (S (length g) - 1 - 0)%nat with (length g) by lia.
    now rewrite A.
  - replace (length g - 1 - p)%nat with 0%nat by lia. rewrite skipn_all2 by lia. reflexivity.
Qed.
Print Assumptions C108_written_formula.

(** ... but not in general: with it two elements of a 2 x 3 x 4 array would share
    one position, and the strides differ from those the library computes. *)
Theorem C108_written_formula_refuted :
  ~ (forall shape dims partitioning md,
       Permutation dims (zseq (zlen shape)) -> Sorted Z.le partitioning ->
       Forall (fun p => 0 <= p <= zlen shape) partitioning ->
       create_reduction_metadata shape dims partitioning = Ok md ->
       map rg_strides md = map (fun g => map (written_stride shape g) (seq 0 (length g))) (parts dims partitioning))
  /\ exists shape g i j, in_box i shape /\ in_box j shape /\ i <> j /\ Permutation g (zseq (zlen shape))
       /\ written_reduced shape i g = written_reduced shape j g.
Proof.
  assert (P : Permutation [0; 1; 2] (zseq (zlen [2; 3; 4]))) by apply Permutation_refl.
  split.
  - intros H. specialize (H [2; 3; 4] [0; 1; 2] [] _ P (Sorted_nil _) (Forall_nil _) eq_refl). discriminate.
  - exists [2; 3; 4], [0; 1; 2], [0; 1; 0], [0; 0; 3]. repeat split; try (repeat constructor; lia); try congruence.
Qed.
Print Assumptions C108_written_formula_refuted.

(** The reduced index numbers the elements of a part in row-major order of its
    axes, as the table of reduction arrays shows. *)
Theorem C108_order : forall shape g i j,
  Forall (fun d => 0 <= d < zlen shape) g -> in_box i shape -> in_box j shape ->
  (reduced shape i g < reduced shape j g <-> row_major_lt (map (axis i) g) (map (axis j) g))
  /\ (reduced shape i g = reduced shape j g <-> map (axis i) g = map (axis j) g)
  /\ 0 <= reduced shape i g < n_elements (map (axis shape) g).
Proof.
  intros shape g i j Hg Hi Hj.
  assert (B : forall k, in_box k shape -> in_box (gather k g) (gather shape g)).
  { intros k Hk. clear - Hg Hk. induction Hg as [|d g Hd Hg IH]; [constructor|]. constructor; [|exact IH].
    assert (L : zlen k = zlen shape) by now apply in_box_zlen.
    apply (proj1 (in_box_nth k shape L)); auto. }
  pose proof (B i Hi) as Bi. pose proof (B j Hj) as Bj.
  rewrite <- !reduced_spec, !map_axis. change (n_elements (gather shape g)) with (product (gather shape g)).
  pose proof (ravel_range _ _ Bi) as Ri. split; [|split; [|exact Ri]].
  - clear Ri. revert Bi Bj. generalize (gather i g) (gather j g) (gather shape g). clear. intros a b sh Ha.
    revert b. induction Ha as [|x n a sh Hx Ha IH]; intros b Hb.
    + inversion Hb; subst. cbn. split; [lia|]. intros H. inversion H.
    + inversion Hb as [|y ? b' ? Hy Hb']; subst. cbn [make_strides zdot].
      pose proof (ravel_range _ _ Ha) as R1. pose proof (ravel_range _ _ Hb') as R2.
      specialize (IH b' Hb'). set (P := product sh) in *.
      split.
      * intros H. destruct (Z_lt_le_dec x y) as [L|L].
        { constructor; [exact L|]. rewrite (in_box_len _ _ Ha), (in_box_len _ _ Hb'). reflexivity. }
        assert (x = y) by nia. subst y. apply rml_tail. apply IH. lia.
      * intros H. inversion H as [? ? ? ? L _|? ? ? H']; subst; [nia|]. apply IH in H'. lia.
  - split.
    + intros E. rewrite <- (unravel_ravel0 _ _ Bi), <- (unravel_ravel0 _ _ Bj). now rewrite E.
    + intros ->. reflexivity.
Qed.
Print Assumptions C108_order.

Example C108_order_ex : map (fun i => reduced [2; 3; 4] i [2; 0]) [[0; 2; 3]; [1; 2; 3]; [1; 0; 0]] = [6; 7; 1]
  /\ in_box [1; 2; 3] [2; 3; 4] /\ Forall (fun d => 0 <= d < 3) [2; 0].
Proof. repeat split; repeat constructor; lia. Qed.

(** * The array a DM array wraps *)

Lemma dm_data h sh gs d f : repr h (SDM sh gs (map (gather sh) gs) (group_strides sh gs) (repeat 0 (length gs)) d) f ->
  shape_of d = group_shape sh gs ->
  forall i, in_box i sh -> in_box (map (reduced sh i) gs) (shape_of d)
    /\ get_elem h d (map (reduced sh i) gs) = Ok (f i).
Proof.
  intros (g & Hg & Hd & Hf) Es i Hi. pose proof (dm_box _ _ _ _ _ _ Hd i Hi) as B.
  rewrite dm_index_group, group_index_spec in B. split; [exact B|].
  rewrite (repr_get h d g _ Hg B), (Hf i Hi), dm_index_group, group_index_spec. reflexivity.
Qed.

Lemma parts_strict dims p n : Permutation dims (zseq n) -> 0 < n -> StronglySorted Z.lt p -> Forall (fun x => 0 < x < n) p ->
  cut dims ([0] ++ p ++ [n]) = parts dims p.
Proof.
  intros Hperm Hn Hs Hf. apply parts_spec.
  - unfold zlen. rewrite (Permutation_length Hperm), zseq_length_nat. lia.
  - apply StronglySorted_Sorted in Hs. clear - Hs. induction Hs as [|a l Hs IH Hd]; [constructor|].
    constructor; [exact IH|]. inversion Hd; subst; constructor; lia.
  - eapply Forall_impl; [|exact Hf]. intros; cbn in *; lia.
Qed.

(** DM.fromobject: the wrapped array has the reduced shape, and its element at the
    reduced index is the given element (the unspecified value for None). *)
Theorem C108_fromobject : forall c h v sh u dims partitioning,
  regular sh v -> positive sh ->
  mapping_ok (zlen sh) (Some dims) (Some partitioning) -> dm_rank_ok c (zlen partitioning + 1) ->
  let u' := chosen VNone u in
  let gs := parts dims partitioning in
  (c = CCSR -> exists i x, in_box i sh /\ nested_at v i = Some x /\ x <> VNone /\ x <> u') ->
  exists rsh rst ro d h',
    dm_fromobject h (SrcSeq v) (fo_unspecified u) (Some dims) (Some partitioning) c = Ok (SDM sh gs rsh rst ro d, h')
    /\ shape_of d = map (fun g => n_elements (map (axis sh) g)) gs
    /\ forall i, in_box i sh -> exists x, nested_at v i = Some x
         /\ get_elem h' d (map (reduced sh i) gs) = Ok (match x with VNone => u' | _ => x end).
Proof.
  intros c h v sh u dims partitioning Hreg Hp [Hn Hd Hpart] Hc u' gs Hsp.
  assert (Hsrc : source_repr h (SrcSeq v) (nested_elem v)) by (exists sh; split; [exact Hreg|reflexivity]).
  pose proof (source_reads h (SrcSeq v) (nested_elem v) u Hsrc) as Hreads.
  cbn [get_shape] in Hreads. rewrite (regular_shape sh v Hreg) in Hreads.
  pose proof (dm_args_strict (dm_is_buffer c) _ _ _ Hn Hd Hpart) as Ha.
  destruct (dm_fromobject_ok c h (SrcSeq v) (fo_unspecified u) (Some dims) (Some partitioning) sh _ Hreads Hp Ha)
    as (d & h' & E1 & E2 & E3 & E4 & E5 & E6 & E7 & E8).
  { apply (dm_class_ok_intro c sh (Some dims) (Some partitioning) u'
             (fo_value (SrcSeq v) (fo_unspecified u) (nested_elem v))); auto.
    intros Ec. destruct (Hsp Ec) as (i & x & Hi & Hx & N1 & N2). exists i. split; [exact Hi|].
    unfold fo_value, nested_elem. rewrite Hx. now apply conv_differs. }
  assert (Eg : dm_rdims (dm_is_buffer c) (zlen sh) (Some dims) (Some partitioning) = gs).
  { unfold dm_rdims. cbn [dm_dims dm_part]. destruct (Hpart _ eq_refl). now apply parts_strict; auto. }
  rewrite Eg in *.
  eexists _, _, _, d, h'. split; [exact E1|]. split; [rewrite E2; apply group_shape_spec|].
  intros i Hi. exists (nested_elem v i). split; [now apply (regular_get sh)|].
  destruct (dm_data h' sh gs d _ E6 E2 i Hi) as [_ G]. rewrite G. f_equal.
  change (fo_value (SrcSeq v) (fo_unspecified u) (nested_elem v) i) with (conv_value VNone u' (nested_elem v i)).
  destruct (conv_cases VNone u' (nested_elem v i) _ eq_refl) as [C1 C2].
  destruct (nested_elem v i) eqn:En; [now apply C1| | |]; apply C2; discriminate.
Qed.
Print Assumptions C108_fromobject.

(** as_DM of any array. *)
Theorem C108_as_DM : forall h s dims partitioning c u,
  valid h s -> positive (shape_of s) ->
  mapping_ok (zlen (shape_of s)) (Some dims) (Some partitioning) -> dm_rank_ok c (zlen partitioning + 1) ->
  let u' := chosen (unspecified_of s) u in
  let gs := parts dims partitioning in
  (c = CCSR -> some_element_stays h s u') ->
  exists rsh rst ro d h',
    as_DM h s (Some dims) (Some partitioning) c u = Ok (SDM (shape_of s) gs rsh rst ro d, h')
    /\ shape_of d = map (fun g => n_elements (map (axis (shape_of s)) g)) gs
    /\ forall i, in_box i (shape_of s) -> exists x, get_elem h s i = Ok x
         /\ (x = unspecified_of s -> get_elem h' d (map (reduced (shape_of s) i) gs) = Ok u')
         /\ (x <> unspecified_of s -> get_elem h' d (map (reduced (shape_of s) i) gs) = Ok x).
Proof.
  intros h s dims partitioning c u [f Hr] Hp [Hn Hd Hpart] Hc u' gs Hst.
  assert (Hne : shape_of s <> []) by (intros E; rewrite E in Hn; discriminate).
  pose proof (dm_args_strict (dm_is_buffer c) _ _ _ Hn Hd Hpart) as Ha.
  pose proof (storage_reads h s f (Some (shape_of s)) u Hr Hne eq_refl) as Hreads.
  destruct (dm_fromobject_ok c h (SrcSto s) (FO (Some (shape_of s)) None u) (Some dims) (Some partitioning) _ f Hreads Hp Ha)
    as (d & h' & E1 & E2 & E3 & E4 & E5 & E6 & E7 & E8).
  { apply (dm_class_ok_intro c (shape_of s) (Some dims) (Some partitioning) u'
             (fo_value (SrcSto s) (FO (Some (shape_of s)) None u) f)); auto.
    intros Ec. exact (stays_specified h s f _ Hr (Hst Ec)). }
  assert (Eg : dm_rdims (dm_is_buffer c) (zlen (shape_of s)) (Some dims) (Some partitioning) = gs).
  { unfold dm_rdims. cbn [dm_dims dm_part]. destruct (Hpart _ eq_refl). now apply parts_strict; auto. }
  rewrite Eg in *.
  eexists _, _, _, d, h'. split; [exact E1|]. split; [rewrite E2; apply group_shape_spec|].
  intros i Hi. exists (f i). split; [now apply repr_get|].
  destruct (dm_data h' (shape_of s) gs d _ E6 E2 i Hi) as [_ G]. rewrite G.
  destruct (conv_cases (unspecified_of s) u' (f i) _ eq_refl) as [C1 C2].
  split; intros H; f_equal; [now apply C1|now apply C2].
Qed.
Print Assumptions C108_as_DM.

(** Without arguments the axes keep their order and the last one forms the second
    part; the only axis of a vector, and all axes for a Buffer, form one part. *)
Theorem C108_default : forall c h src a dimensions partitioning,
  let n := zlen (fo_get_shape src a) in
  dm_fromobject h src a dimensions partitioning c
  = dm_fromobject h src a
      (Some (match dimensions with Some d => d | None => zseq n end))
      (Some (match partitioning with
             | Some p => p
             | None => match c with CBuffer => [] | _ => if n =? 1 then [] else [n - 1] end
             end)) c.
Proof.
  intros c h src a dimensions partitioning n. unfold dm_fromobject, dm_fromobject_gen. fold n.
  destruct dimensions, partitioning, c; reflexivity.
Qed.
Print Assumptions C108_default.

(** Properties of compress_indices / uncompress_indices and of the
    dimensionality reductions (gcs_basics.py and storage.py). *)
From Coq Require Import Sorting.Sorted Permutation.
From Verif Require Import Py SliceTools Basics Storage Spec SliceFacts CompressFacts ReduceFacts.

(** * C17 *)
Theorem C17_compress_indices : forall l size,
  Sorted Z.le l -> 0 <= size -> Forall (fun x => 0 <= x < size) l ->
  exists c, compress_indices l size = Ok c
    /\ zlen c = size + 1
    /\ forall r, 0 <= r <= size ->
         nth (Z.to_nat r) c 0 = zlen (filter (fun x => x <? r) l).
Proof.
  intros l size Hs Hsz Hr. exists (map (fun r => count_lt r l) (zseq (size + 1))).
  split; [now apply compress_indices_spec|]. split.
  - rewrite zlen_map, zseq_length. lia.
  - intros r Hr'. rewrite nth_zseq_map by lia. rewrite count_lt_length. now rewrite Z2Nat.id by lia.
Qed.
Example C17_ex : let l := [0; 0; 2; 5; 5; 5] in
  Sorted Z.le l /\ Forall (fun x => 0 <= x < 7) l
  /\ compress_indices l 7 = Ok [0; 2; 2; 3; 3; 3; 6; 6].
Proof. cbv zeta. repeat split; repeat constructor; lia. Qed.

(** * C18 *)
Theorem C18_uncompress_compress : forall l size,
  Sorted Z.le l -> 0 <= size -> Forall (fun x => 0 <= x < size) l ->
  exists c, compress_indices l size = Ok c /\ uncompress_indices c = l.
Proof.
  intros l size Hs Hsz Hr. eexists. split; [now apply compress_indices_spec|].
  apply (uncompress_compress l size); auto. now apply compress_indices_spec.
Qed.
Theorem C18_compress_uncompress : forall c,
  c <> [] -> nth 0 c 0 = 0 -> Sorted Z.le c ->
  compress_indices (uncompress_indices c) (zlen c - 1) = Ok c.
Proof.
  intros c Hne H0 Hs. apply compress_uncompress; auto. destruct c; [congruence|exact H0].
Qed.
Example C18_ex : Sorted Z.le [0; 2; 2; 3; 6] /\ uncompress_indices [0; 2; 2; 3; 6] = [0; 0; 2; 3; 3; 3].
Proof. split; [|reflexivity]. repeat constructor; lia. Qed.

(** * C20

    A mapping of the axes is given by groups of axes whose concatenation is a
    permutation of 0, ..., N-1 (empty groups allowed). *)
Theorem C20_reduce_promote : forall shape rdims,
  Permutation (concat rdims) (zseq (zlen shape)) ->
  exists rshape rshapes rstrides,
    make_reduction shape rdims = Ok (rshape, rshapes, rstrides)
    /\ rshape = map (fun g => n_elements (map (fun d => nth (Z.to_nat d) shape 0) g)) rdims
    /\ (forall i, in_box i shape ->
          exists r, reduce_index rshapes rdims rstrides (map (fun _ => 0) rdims) i = Ok r
            /\ in_box r rshape
            /\ promote_index rshapes rdims rstrides (map (fun _ => 0) rdims) r = Ok i)
    /\ (positive shape -> forall r, in_box r rshape ->
          exists i, promote_index rshapes rdims rstrides (map (fun _ => 0) rdims) r = Ok i
            /\ in_box i shape
            /\ reduce_index rshapes rdims rstrides (map (fun _ => 0) rdims) i = Ok r).
Proof.
  intros shape rdims Hperm.
  assert (Ez : map (fun _ => 0) rdims = repeat 0 (length rdims)).
  { clear. induction rdims; cbn; congruence. }
  pose proof (perm_axes _ _ Hperm) as Ha.
  exists (group_shape shape rdims), (group_shapes shape rdims), (group_strides shape rdims).
  split; [now apply make_reduction_ok|]. split; [reflexivity|]. rewrite Ez. split.
  - intros i Hi. exists (group_index shape rdims i). split; [|split].
    + rewrite reduce_index_ok.
      * rewrite map2_add_zeros by apply group_index_length. reflexivity.
      * rewrite (in_box_zlen _ _ Hi). exact Ha.
      * apply repeat_length.
    + apply group_index_in_box, in_box_groups. apply (in_box_gather (zlen shape)); auto.
      now apply in_box_zlen.
    + now apply promote_reduce.
  - intros Hp r Hr. destruct (reduce_promote shape rdims r Hp Hperm Hr) as (i & E & Hi & Hg).
    exists i. split; [exact E|]. split; [exact Hi|].
    rewrite reduce_index_ok.
    + rewrite Hg, map2_add_zeros; [reflexivity|]. rewrite (in_box_len _ _ Hr). apply map_length.
    + rewrite (in_box_zlen _ _ Hi). exact Ha.
    + apply repeat_length.
Qed.
(** Rank 4, permuted axes, three groups of which one is empty. *)
Example C20_ex : let shape := [2; 3; 4; 5] in let rdims := [[2; 0]; []; [3; 1]] in
  Permutation (concat rdims) (zseq (zlen shape))
  /\ make_reduction shape rdims = Ok ([8; 1; 15], [[4; 2]; []; [5; 3]], [[2; 1]; []; [3; 1]])
  /\ reduce_index [[4; 2]; []; [5; 3]] rdims [[2; 1]; []; [3; 1]] [0; 0; 0] [1; 2; 3; 4]
     = Ok [7; 0; 14].
Proof.
  cbv zeta. split; [|split; reflexivity].
  apply NoDup_Permutation.
  - repeat constructor; cbn; intuition lia.
  - apply NoDup_zseq.
  - intros x. rewrite In_zseq. cbn. unfold zlen. cbn. lia.
Qed.

(** The same with an origin for every group: the reduced index of i is shifted
    by the origins, and promoting shifts back. *)
Lemma promote_groups_shift : forall rshapes rdims rstrides roffset r index,
  length r = length rdims -> length roffset = length rdims ->
  promote_groups rshapes rdims rstrides roffset (map2 Z.add roffset r) index
  = promote_groups rshapes rdims rstrides (repeat 0 (length rdims)) r index.
Proof.
  induction rshapes as [|sh shs IH]; intros rdims rstrides roffset r index Hr Ho; [reflexivity|].
  destruct rdims as [|d ds], r as [|x r], roffset as [|o os]; try (cbn in Hr, Ho; lia); [reflexivity|].
  destruct rstrides as [|st sts]; [reflexivity|].
  cbn [map2 promote_groups length repeat]. replace (o + x - o) with (x - 0) by lia.
  destruct (promotion_loop (x - 0) d st sh index) as [index'|e]; [|reflexivity]. cbn [bind].
  apply IH; cbn in Hr, Ho; lia.
Qed.
Theorem C20_origins : forall shape rdims roffset,
  Permutation (concat rdims) (zseq (zlen shape)) -> length roffset = length rdims ->
  exists rshape rshapes rstrides,
    make_reduction shape rdims = Ok (rshape, rshapes, rstrides)
    /\ (forall i, in_box i shape ->
          exists r, in_box r rshape
            /\ reduce_index rshapes rdims rstrides roffset i = Ok (map2 Z.add roffset r)
            /\ promote_index rshapes rdims rstrides roffset (map2 Z.add roffset r) = Ok i)
    /\ (positive shape -> forall r, in_box r rshape ->
          exists i, in_box i shape
            /\ promote_index rshapes rdims rstrides roffset (map2 Z.add roffset r) = Ok i
            /\ reduce_index rshapes rdims rstrides roffset i = Ok (map2 Z.add roffset r)).
Proof.
  intros shape rdims roffset Hperm Ho.
  pose proof (perm_axes _ _ Hperm) as Ha.
  assert (Sh : forall r, length r = length rdims ->
            promote_index (group_shapes shape rdims) rdims (group_strides shape rdims) roffset (map2 Z.add roffset r)
            = promote_index (group_shapes shape rdims) rdims (group_strides shape rdims) (repeat 0 (length rdims)) r).
  { intros r Hr. unfold promote_index. now rewrite promote_groups_shift. }
  exists (group_shape shape rdims), (group_shapes shape rdims), (group_strides shape rdims).
  split; [now apply make_reduction_ok|]. split.
  - intros i Hi. exists (group_index shape rdims i). split; [|split].
    + apply group_index_in_box, in_box_groups. apply (in_box_gather (zlen shape)); auto.
      now apply in_box_zlen.
    + apply reduce_index_ok; [|exact Ho]. rewrite (in_box_zlen _ _ Hi). exact Ha.
    + rewrite Sh by apply group_index_length. now apply promote_reduce.
  - intros Hp r Hr. destruct (reduce_promote shape rdims r Hp Hperm Hr) as (i & E & Hi & Hg).
    assert (Lr : length r = length rdims).
    { rewrite (in_box_len _ _ Hr). apply map_length. }
    exists i. split; [exact Hi|]. split; [now rewrite Sh|].
    rewrite reduce_index_ok; [now rewrite Hg| |exact Ho].
    rewrite (in_box_zlen _ _ Hi). exact Ha.
Qed.

(** Promoting a plain int: when all axes are in one group, every position from
    the origin on is the reduced index of exactly one element; with any other
    number of groups it is an AssertionError. *)
Theorem C20_int : forall shape g o,
  Permutation g (zseq (zlen shape)) -> positive shape ->
  exists rshapes rstrides,
    make_reduction shape [g] = Ok ([n_elements shape], rshapes, rstrides)
    /\ (forall p, 0 <= p < n_elements shape ->
          exists i, in_box i shape
            /\ promote_index_int rshapes [g] rstrides [o] (o + p) = Ok i
            /\ reduce_index rshapes [g] rstrides [o] i = Ok [o + p])
    /\ (forall rdims rshapes' rstrides' o' p, length rdims <> 1%nat ->
          promote_index_int rshapes' rdims rstrides' o' p = Raise AssertionError).
Proof.
  intros shape g o Hg Hp.
  assert (Hperm : Permutation (concat [g]) (zseq (zlen shape))) by (cbn; now rewrite app_nil_r).
  destruct (C20_origins shape [g] [o] Hperm eq_refl) as (rshape & rshapes & rstrides & E & _ & B).
  assert (En : rshape = [n_elements shape]).
  { destruct (C20_reduce_promote shape [g] Hperm) as (rs & a & b & E' & Ers & _).
    rewrite E in E'. injection E' as Er _ _. rewrite Er, Ers. cbn [map]. f_equal.
    exact (product_perm _ _ (gather_perm shape g Hg)). }
  exists rshapes, rstrides. rewrite <- En. split; [exact E|]. split.
  - intros p Hr. rewrite En in B.
    destruct (B Hp [p]) as (i & Hi & P1 & P2).
    { repeat constructor; lia. }
    exists i. split; [exact Hi|]. split; [|exact P2].
    rewrite <- P1. unfold make_reduction in E. cbn [mapM] in E.
    destruct (mapM (pyget shape) g) as [x|]; cbn [bind map] in E; [|discriminate].
    injection E as _ <- <-. unfold promote_index_int, promote_index.
    change (zlen [g] =? 1) with true. cbn [assert_ bind promote_groups map2].
    destruct (promotion_loop _ _ _ _ _); reflexivity.
  - intros rdims rs' st' o' p Hl. unfold promote_index_int.
    replace (zlen rdims =? 1) with false; [reflexivity|]. symmetry. apply Z.eqb_neq. unfold zlen. lia.
Qed.
Example C20_int_ex : Permutation [2; 0; 1] (zseq (zlen [2; 3; 4])) /\ positive [2; 3; 4]
  /\ exists rshapes rstrides, make_reduction [2; 3; 4] [[2; 0; 1]] = Ok ([24], rshapes, rstrides)
     /\ promote_index_int rshapes [[2; 0; 1]] rstrides [100] 117 = Ok [1; 2; 2].
Proof.
  split; [|split].
  - apply NoDup_Permutation.
    + repeat constructor; cbn; intuition lia.
    + apply NoDup_zseq.
    + intros x. rewrite In_zseq. cbn. unfold zlen. cbn. lia.
  - repeat constructor; lia.
  - eexists _, _. split; [reflexivity|]. reflexivity.
Qed.

(** The groups built by DM.fromobject and create_reduction_metadata from a
    permutation and a nondecreasing partitioning are of that form. *)
Theorem C20_partitioning_groups : forall dims partitioning n,
  Permutation dims (zseq n) -> 0 <= n -> Sorted Z.le partitioning ->
  Forall (fun p => 0 <= p <= n) partitioning ->
  concat (cut dims ([0] ++ partitioning ++ [n])) = dims
  /\ length (cut dims ([0] ++ partitioning ++ [n])) = S (length partitioning).
Proof.
  intros dims part n Hp Hn Hs Hf. split.
  - apply concat_cut_partition; [|split; assumption].
    unfold zlen. rewrite (Permutation_length Hp), zseq_length_nat. lia.
  - rewrite cut_length by (cbn; congruence). cbn [app length]. rewrite app_length. cbn [length]. lia.
Qed.

(** * C21 *)
Theorem C21_reduction_promotion : forall shape dims partitioning,
  Permutation dims (zseq (zlen shape)) ->
  Sorted Z.le partitioning -> Forall (fun p => 0 <= p <= zlen shape) partitioning ->
  zlen partitioning + 1 <= zlen shape ->
  exists md,
    create_reduction_metadata shape dims partitioning = Ok md
    /\ zlen (reduction_shape md) = zlen partitioning + 1
    /\ n_elements (reduction_shape md) = n_elements shape
    /\ (forall i, in_box i shape ->
          exists r, reduction md i = Ok r /\ in_box r (reduction_shape md)
            /\ promotion (zlen shape) md r = Ok i)
    /\ (positive shape -> forall r, in_box r (reduction_shape md) ->
          exists i, promotion (zlen shape) md r = Ok i /\ in_box i shape
            /\ reduction md i = Ok r).
Proof.
  intros shape dims part Hperm Hs Hf Hl.
  set (rdims := cut dims ([0] ++ part ++ [zlen shape])).
  destruct (C20_partitioning_groups dims part (zlen shape) Hperm (zlen_nonneg _) Hs Hf) as [Ec Elen].
  fold rdims in Ec, Elen.
  assert (Hperm' : Permutation (concat rdims) (zseq (zlen shape))) by now rewrite Ec.
  pose proof (perm_axes _ _ Hperm') as Ha.
  exists (md_of shape rdims).
  assert (Ers : reduction_shape (md_of shape rdims) = group_shape shape rdims).
  { unfold reduction_shape, md_of, group_shape. now rewrite map_map. }
  rewrite Ers. split; [now apply create_reduction_metadata_ok|]. split; [|split; [|split]].
  - unfold group_shape. rewrite zlen_map. unfold zlen. lia.
  - transitivity (n_elements (gather shape dims)); [|exact (product_perm _ _ (gather_perm shape dims Hperm))].
    rewrite <- Ec. clear. unfold n_elements. induction rdims as [|g gs IH]; [reflexivity|].
    cbn [concat group_shape map fold_right]. rewrite gather_app, fold_right_app.
    unfold group_shape in IH. rewrite IH. generalize (fold_right Z.mul 1 (gather shape (concat gs))) as t.
    intros t. clear IH. induction (gather shape g) as [|x l IHl]; cbn [product fold_right]; [lia|].
    rewrite <- IHl. ring.
  - intros i Hi. exists (group_index shape rdims i). split; [|split].
    + apply reduction_ok. rewrite (in_box_zlen _ _ Hi). exact Ha.
    + apply group_index_in_box, in_box_groups. apply (in_box_gather (zlen shape)); auto.
      now apply in_box_zlen.
    + rewrite promotion_promote; auto; [now apply promote_reduce| |].
      * now apply in_box_positive in Hi.
      * apply group_index_length.
  - intros Hp r Hr. destruct (reduce_promote shape rdims r Hp Hperm' Hr) as (i & E & Hi & Hg).
    exists i. split; [|split; [exact Hi|]].
    + rewrite promotion_promote; auto. rewrite (in_box_len _ _ Hr). apply map_length.
    + rewrite <- Hg. apply reduction_ok. rewrite (in_box_zlen _ _ Hi). exact Ha.
Qed.
Example C21_ex : Permutation [3; 1; 0; 2] (zseq (zlen [2; 3; 4; 5]))
  /\ Sorted Z.le [1; 3] /\ Forall (fun p => 0 <= p <= zlen [2; 3; 4; 5]) [1; 3]
  /\ (md <- create_reduction_metadata [2; 3; 4; 5] [3; 1; 0; 2] [1; 3] ;;
      r <- reduction md [1; 2; 3; 4] ;; Ok (reduction_shape md, r)) = Ok ([5; 6; 4], [4; 5; 3]).
Proof.
  repeat split.
  - apply NoDup_Permutation.
    + repeat constructor; cbn; intuition lia.
    + apply NoDup_zseq.
    + intros x. rewrite In_zseq. unfold zlen. cbn. lia.
  - repeat constructor; lia.
  - unfold zlen. cbn. repeat constructor; lia.
Qed.

Print Assumptions C17_compress_indices.
Print Assumptions C18_uncompress_compress.
Print Assumptions C18_compress_uncompress.
Print Assumptions C20_reduce_promote.
Print Assumptions C20_origins.
Print Assumptions C20_int.
Print Assumptions C20_partitioning_groups.
Print Assumptions C21_reduction_promotion.

(** DM arrays: construction and slicing. *)
From Coq Require Import Sorting.Sorted Permutation ZifyBool.
From Verif Require Import Py SliceTools Basics Storage Spec SliceFacts IndexFacts
  CompressFacts ReduceFacts SolverFacts SolveFacts Repr ReprFacts ViewFacts BuildFacts SparseFacts
  ConvFacts FromFacts.

Lemma zmem_In x l : zmem x l = true <-> In x l.
Proof.
  unfold zmem. rewrite existsb_exists. split.
  - intros (y & Hy & E). assert (x = y) as -> by lia. exact Hy.
  - intros H. exists x. split; [exact H|]. apply Z.eqb_refl.
Qed.

Lemma mk_dm_ok sh rdims rstrides roffset d : rdims <> [] ->
  Permutation (concat rdims) (zseq (zlen sh)) ->
  mk_dm sh rdims rstrides roffset d = Ok (SDM sh rdims (map (gather sh) rdims) rstrides roffset d).
Proof.
  intros Hne Hp. unfold mk_dm. destruct rdims as [|g0 gs]; [congruence|].
  set (rdims := g0 :: gs) in *. unfold assert_.
  assert (E1 : forallb (fun x => zmem x (zseq (zlen sh))) (concat rdims) = true).
  { apply forallb_forall. intros x Hx. apply zmem_In. now apply (Permutation_in _ Hp). }
  assert (E2 : forallb (fun x => zmem x (concat rdims)) (zseq (zlen sh)) = true).
  { apply forallb_forall. intros x Hx. apply zmem_In. now apply (Permutation_in _ (Permutation_sym Hp)). }
  rewrite E1, E2. cbn [andb bind]. rewrite make_reduction_ok by now apply perm_axes. reflexivity.
Qed.

(** * Construction *)
Lemma dm_index_group sh rdims i :
  dm_index rdims (group_strides sh rdims) (repeat 0 (length rdims)) i = group_index sh rdims i.
Proof.
  induction rdims as [|g gs IH]; [reflexivity|].
  cbn [group_strides map length repeat dm_index group_index]. f_equal. exact IH.
Qed.

Lemma map_zero {A} (l : list A) : map (fun _ => 0) l = repeat 0 (length l).
Proof. induction l; cbn; congruence. Qed.

Lemma group_dm_ok sh rdims : positive sh -> rdims <> [] ->
  Permutation (concat rdims) (zseq (zlen sh)) ->
  dm_ok sh rdims (map (gather sh) rdims) (group_strides sh rdims) (repeat 0 (length rdims))
        (group_shape sh rdims).
Proof.
  intros Hp Hne Hperm. constructor; auto.
  - eapply Forall_impl; [|exact Hp]. cbn. intros; lia.
  - unfold group_strides. clear. induction rdims as [|g gs IH]; cbn [map]; constructor; auto.
    rewrite make_strides_length. symmetry. apply gather_length.
  - apply repeat_length.
  - intros i Hi. rewrite dm_index_group. apply group_index_in_box, in_box_groups.
    apply (in_box_gather (zlen sh)); auto. now apply in_box_zlen.
  - intros i j Hi Hj. rewrite !dm_index_group. intros E.
    pose proof (promote_reduce sh rdims i Hperm Hi) as Ei.
    pose proof (promote_reduce sh rdims j Hperm Hj) as Ej. rewrite E in Ei. congruence.
Qed.

(** What dm_fromobject_gen needs of the underlying fromobject. *)
(** The offsets of all dimensionality mappings are zero. *)
Definition zero_off : storage -> Prop :=
  fix go s := match s with
              | SDM _ _ _ _ ro d => Forall (fun o => o = 0) ro /\ go d
              | _ => True
              end.

Definition fo_spec (fo : heap -> source -> fo_args -> res (storage * heap))
    (Cond : list Z -> pyval -> (list Z -> pyval) -> Prop) (K : storage -> Prop) : Prop :=
  forall h src a sh g, is_default a = false -> reads h src a sh g ->
    Cond sh (fo_get_unspec src a) (fo_value src a g) ->
    exists s h', fo h src a = Ok (s, h')
      /\ shape_of s = sh /\ unspecified_of s = fo_get_unspec src a
      /\ extends h h' /\ fresh h s /\ repr h' s (fo_value src a g) /\ K s.

Lemma flat_fo_spec c : fo_spec (flat_fromobject c) (class_ok c) (is_class c).
Proof.
  intros h src a sh g Hd Hr Hc.
  assert (Hns : no_shortcut c src a).
  { unfold no_shortcut. rewrite Hd. destruct src; exact I. }
  destruct (build_class c h src a sh g Hns Hr Hc) as (s & h' & E1 & E2 & E3 & E4 & E5 & E6 & E7 & E8).
  exists s, h'. auto 10.
Qed.

(** The groups of axes chosen by the arguments dimensions and partitioning. *)
Definition dm_dims (n : Z) (dimensions : option (list Z)) : list Z :=
  match dimensions with None => zseq n | Some d => d end.
Definition dm_part (is_buffer : bool) (n : Z) (partitioning : option (list Z)) : list Z :=
  match partitioning with
  | None => if is_buffer || (n =? 1) then [] else [n - 1]
  | Some p => p
  end.
Definition dm_rdims (is_buffer : bool) (n : Z) (dimensions partitioning : option (list Z))
    : list (list Z) :=
  cut (dm_dims n dimensions) ([0] ++ dm_part is_buffer n partitioning ++ [n]).

(** Valid arguments. *)
Record dm_args (is_buffer : bool) (n : Z) (dimensions partitioning : option (list Z)) : Prop := {
  da_dims : Permutation (dm_dims n dimensions) (zseq n);
  da_sorted : Sorted Z.le (dm_part is_buffer n partitioning);
  da_range : Forall (fun p => 0 < p < n) (dm_part is_buffer n partitioning);
  da_count : zlen (dm_part is_buffer n partitioning) + 1 <= n;
  da_distinct : NoDup (dm_rdims is_buffer n dimensions partitioning) }.

Lemma is_sorted_Sorted l : is_sorted l = true <-> Sorted Z.le l.
Proof.
  induction l as [|a l IH]; [split; auto; reflexivity|]. destruct l as [|b l].
  - split; auto; reflexivity.
  - change (is_sorted (a :: b :: l)) with ((a <=? b) && is_sorted (b :: l)).
    rewrite andb_true_iff, IH. split.
    + intros [H1 H2]. constructor; [exact H2|]. constructor. lia.
    + intros H. inversion H as [|? ? H1 H2]; subst. inversion H2; subst. split; [lia|exact H1].
Qed.

Lemma distinct_groups_NoDup seen l : distinct_groups seen l = true <->
  NoDup l /\ forall g, In g l -> ~ In g seen.
Proof.
  revert seen. induction l as [|g l IH]; intros seen; cbn [distinct_groups].
  - split; [intros _; split; [constructor|contradiction]|reflexivity].
  - rewrite andb_true_iff, IH. assert (X : negb (existsb (lex_eqb g) seen) = true <-> ~ In g seen).
    { rewrite negb_true_iff, <- not_true_iff_false, existsb_exists. split.
      - intros H Hin. apply H. exists g. split; [exact Hin|]. now apply lex_eqb_eq.
      - intros H (x & Hx & E). apply lex_eqb_eq in E. subst. contradiction. }
    rewrite X. split.
    + intros (H1 & H2 & H3). split.
      * constructor; [|exact H2]. intros Hin. apply (H3 g Hin). apply in_or_app. right. now left.
      * intros g' [<-|Hin]; [exact H1|]. intros Hs. apply (H3 g' Hin). apply in_or_app. now left.
    + intros [H1 H2]. inversion H1 as [|? ? H3 H4]; subst. split; [apply H2; now left|]. split; [exact H4|].
      intros g' Hin Hs. apply in_app_or in Hs. destruct Hs as [Hs|[<-|[]]]; [|contradiction].
      apply (H2 g'); [now right|exact Hs].
Qed.

Definition promoted (sh : list Z) (rdims : list (list Z)) (r : list Z) : list Z :=
  match promote_index (group_shapes sh rdims) rdims (group_strides sh rdims) (repeat 0 (length rdims)) r with
  | Ok i => i
  | Raise _ => []
  end.

Lemma dm_fromobject_gen_ok is_buffer fo Cond K h src a dimensions partitioning sh g :
  fo_spec fo Cond K -> reads h src a sh g -> positive sh ->
  dm_args is_buffer (zlen sh) dimensions partitioning ->
  let rdims := dm_rdims is_buffer (zlen sh) dimensions partitioning in
  Cond (group_shape sh rdims) (fo_get_unspec src a) (fun r => fo_value src a g (promoted sh rdims r)) ->
  exists d h', dm_fromobject_gen is_buffer fo h src a dimensions partitioning
    = Ok (SDM sh rdims (map (gather sh) rdims) (group_strides sh rdims) (repeat 0 (length rdims)) d, h')
    /\ shape_of d = group_shape sh rdims
    /\ unspecified_of d = fo_get_unspec src a
    /\ extends h h'
    /\ fresh h d
    /\ repr h' (SDM sh rdims (map (gather sh) rdims) (group_strides sh rdims) (repeat 0 (length rdims)) d)
            (fo_value src a g)
    /\ K d.
Proof.
  intros Hfo (Hsh & Hn & Hg) Hp Hargs rdims HC. unfold dm_fromobject_gen. rewrite Hsh.
  fold (dm_dims (zlen sh) dimensions). fold (dm_part is_buffer (zlen sh) partitioning).
  set (part := dm_part is_buffer (zlen sh) partitioning).
  destruct Hargs as [Hdims Hsorted Hrange Hcount Hdist]. fold part in Hsorted, Hrange, Hcount.
  unfold assert_. rewrite (proj2 (is_sorted_Sorted part) Hsorted).
  assert (F1 : forallb (fun p => 0 <? p) part = true).
  { apply forallb_forall. intros p Hin. rewrite Forall_forall in Hrange. specialize (Hrange p Hin). lia. }
  assert (F2 : forallb (fun p => p <? zlen sh) part = true).
  { apply forallb_forall. intros p Hin. rewrite Forall_forall in Hrange. specialize (Hrange p Hin). lia. }
  rewrite F1, F2. replace (match part with [] => true | _ :: _ => true && true && true end) with true
    by (destruct part; reflexivity). cbn [bind].
  replace (zlen part + 1 <=? zlen sh) with true by lia. cbn [bind].
  change (cut (dm_dims (zlen sh) dimensions) ([0] ++ part ++ [zlen sh])) with rdims.
  rewrite (proj2 (distinct_groups_NoDup [] rdims)) by (split; [exact Hdist|intros ? _ []]). cbn [bind].
  assert (Ec : concat rdims = dm_dims (zlen sh) dimensions).
  { apply concat_cut_partition.
    - unfold zlen at 1. rewrite (Permutation_length Hdims), zseq_length_nat. unfold zlen. lia.
    - split; [exact Hsorted|]. eapply Forall_impl; [|exact Hrange]. cbn. intros; lia. }
  assert (Elen : length rdims = S (length part)).
  { unfold rdims, dm_rdims. rewrite cut_length by (cbn; congruence). cbn [app length]. rewrite app_length.
    cbn [length]. fold part. lia. }
  assert (Hperm : Permutation (concat rdims) (zseq (zlen sh))) by now rewrite Ec.
  assert (Hne : rdims <> []) by (destruct rdims; [discriminate|discriminate]).
  rewrite make_reduction_ok by now apply perm_axes. cbn [bind]. rewrite map_zero.
  set (gsi := fun rindex => j <- promote_index (group_shapes sh rdims) rdims (group_strides sh rdims)
                                    (repeat 0 (length rdims)) rindex ;;
                            match fo_gsi a with None => Ok j | Some f => f j end).
  assert (Hreads : reads h src (FO (Some (group_shape sh rdims)) (Some gsi) (fo_unspec a))
                         (group_shape sh rdims) (fun r => g (promoted sh rdims r))).
  { split; [reflexivity|]. split.
    - unfold group_shape. clear - Hp Hperm. assert (Ha := perm_axes _ _ Hperm).
      induction rdims as [|g0 gs IH]; cbn [map]; constructor.
      + cbn [concat] in Ha. apply Forall_app in Ha. destruct Ha as [H1 H2].
        apply Z.lt_le_incl, product_positive. eapply gather_positive; [exact H1|reflexivity|exact Hp].
      + clear - Ha Hp. cbn [concat] in Ha. apply Forall_app in Ha. destruct Ha as [_ Ha].
        induction gs as [|g1 gs IH]; cbn [map]; constructor.
        * cbn [concat] in Ha. apply Forall_app in Ha. destruct Ha as [H1 H2].
          apply Z.lt_le_incl, product_positive. eapply gather_positive; [exact H1|reflexivity|exact Hp].
        * apply IH. cbn [concat] in Ha. apply Forall_app in Ha. tauto.
    - intros r Hr. destruct (reduce_promote sh rdims r Hp Hperm Hr) as (i & Ei & Hi & Hgi).
      unfold fo_get. cbn [fo_gsi]. unfold gsi.
      assert (Epr : promoted sh rdims r = i) by (unfold promoted; now rewrite Ei).
      rewrite Ei, Epr. cbn [bind]. rewrite <- (Hg i Hi). unfold fo_get.
      destruct (fo_gsi a); reflexivity. }
  destruct (Hfo h src (FO (Some (group_shape sh rdims)) (Some gsi) (fo_unspec a)) (group_shape sh rdims)
                (fun r => g (promoted sh rdims r)) eq_refl Hreads)
    as (d & h' & E1 & E2 & E3 & E4 & E5 & E6 & E7).
  { exact HC. }
  rewrite E1. cbn [bind]. rewrite E2.
  replace (zlen (group_shape sh rdims) =? zlen part + 1) with true
    by (unfold group_shape; rewrite zlen_map; unfold zlen; lia). cbn [bind].
  rewrite mk_dm_ok by assumption. cbn [bind].
  exists d, h'. split; [reflexivity|]. split; [exact E2|]. split; [exact E3|]. split; [exact E4|]. split; [exact E5|].
  split; [|exact E7]. cbn [repr]. eexists. split; [exact E6|]. rewrite E2. split; [now apply group_dm_ok|].
  intros i Hi. rewrite dm_index_group. unfold fo_value. f_equal. f_equal.
  unfold promoted. now rewrite (promote_reduce sh rdims i Hperm Hi).
Qed.

(** What each storage class needs of the reduced array. *)
Definition dm_class_ok (c : cls) (sh : list Z) (u : pyval) (f : list Z -> pyval) : Prop :=
  match c with CDM => positive sh /\ sh <> [] | _ => class_ok c sh u f end.
Definition dm_is_buffer (c : cls) : bool := match c with CBuffer => true | _ => false end.

Lemma cut_default n : 1 < n -> cut (zseq n) [0; n - 1; n] = [zseq (n - 1); [n - 1]].
Proof.
  intros Hn. cbn [cut]. rewrite !pyslice_window by (rewrite ?zseq_length; lia).
  assert (E : zseq n = zseq (n - 1) ++ [n - 1]).
  { unfold zseq. replace (Z.to_nat n) with (Z.to_nat (n - 1) + 1)%nat by lia.
    rewrite seq_app, map_app. cbn [seq map]. do 2 f_equal. lia. }
  rewrite E. f_equal; [|f_equal].
  - rewrite Z.sub_0_r. cbn [Z.to_nat skipn]. rewrite firstn_app, zseq_length_nat, Nat.sub_diag.
    cbn [firstn]. rewrite app_nil_r. apply firstn_all2. rewrite zseq_length_nat. lia.
  - rewrite skipn_app, zseq_length_nat, Nat.sub_diag. rewrite skipn_all2 by (rewrite zseq_length_nat; lia).
    replace (Z.to_nat (n - (n - 1))) with 1%nat by lia. reflexivity.
Qed.

Lemma dm_args_default n : 0 < n -> dm_args false n None None.
Proof.
  intros Hn. assert (D : n = 1 \/ 1 < n) by lia. destruct D as [->|Hn'].
  - constructor; cbn; repeat constructor; try lia. intros [].
  - assert (E : dm_part false n None = [n - 1]).
    { unfold dm_part. cbn [orb]. replace (n =? 1) with false by lia. reflexivity. }
    constructor; unfold dm_rdims; rewrite ?E; cbn [dm_dims app].
    + reflexivity.
    + repeat constructor.
    + repeat constructor; lia.
    + cbn. lia.
    + rewrite cut_default by lia. constructor; [|repeat constructor; intros []].
      intros [H|[]]. assert (X : In 0 [n - 1]) by (rewrite H; apply In_zseq; lia).
      destruct X as [X|[]]. lia.
Qed.

Lemma group_shape_positive sh rdims : positive sh -> axes_in (zlen sh) (concat rdims) ->
  positive (group_shape sh rdims).
Proof.
  intros Hp. unfold group_shape. induction rdims as [|g gs IH]; intros Ha; cbn [map]; constructor.
  - cbn [concat] in Ha. apply Forall_app in Ha. destruct Ha as [H1 H2].
    apply product_positive. eapply gather_positive; [exact H1|reflexivity|exact Hp].
  - apply IH. cbn [concat] in Ha. apply Forall_app in Ha. tauto.
Qed.

Lemma dm_fo_spec : fo_spec (fun h src a => dm_fromobject_gen false (flat_fromobject CStrided) h src a None None)
                           (dm_class_ok CDM) (fun s => is_class CDM s /\ zero_off s).
Proof.
  intros h src a sh g Hd Hr [Hp Hne].
  assert (Hn : 0 < zlen sh) by (destruct sh; [congruence|unfold zlen; cbn; lia]).
  destruct (dm_fromobject_gen_ok false (flat_fromobject CStrided) (class_ok CStrided) (is_class CStrided) h src a None None sh g
              (flat_fo_spec CStrided) Hr Hp (dm_args_default _ Hn))
    as (d & h' & E1 & E2 & E3 & E4 & E5 & E6 & E7); [exact I|].
  eexists _, h'. split; [exact E1|]. split; [reflexivity|]. split; [exact E3|]. split; [exact E4|].
  split; [exact E5|]. split; [exact E6|]. split; [exact I|]. split.
  - apply Forall_forall. intros x Hx. now apply repeat_spec in Hx.
  - destruct d; try contradiction. exact I.
Qed.

Lemma dm_fromobject_ok c h src a dimensions partitioning sh g :
  reads h src a sh g -> positive sh ->
  dm_args (dm_is_buffer c) (zlen sh) dimensions partitioning ->
  let rdims := dm_rdims (dm_is_buffer c) (zlen sh) dimensions partitioning in
  dm_class_ok c (group_shape sh rdims) (fo_get_unspec src a)
    (fun r => fo_value src a g (promoted sh rdims r)) ->
  exists d h', dm_fromobject h src a dimensions partitioning c
    = Ok (SDM sh rdims (map (gather sh) rdims) (group_strides sh rdims) (repeat 0 (length rdims)) d, h')
    /\ shape_of d = group_shape sh rdims
    /\ unspecified_of d = fo_get_unspec src a
    /\ extends h h'
    /\ fresh h d
    /\ repr h' (SDM sh rdims (map (gather sh) rdims) (group_strides sh rdims) (repeat 0 (length rdims)) d)
            (fo_value src a g)
    /\ is_class c d /\ zero_off d.
Proof.
  intros Hr Hp Ha rdims HC. unfold dm_fromobject. unfold rdims in *.
  assert (F : forall c', c' <> CDM -> forall d, is_class c' d -> zero_off d).
  { intros c' Hc d Hd. destruct c', d; try contradiction; try congruence; exact I. }
  assert (G : c <> CDM -> dm_fromobject h src a dimensions partitioning c
    = dm_fromobject_gen (dm_is_buffer c) (flat_fromobject c) h src a dimensions partitioning).
  { intros Hc. destruct c; try congruence; reflexivity. }
  assert (D : c = CDM \/ c <> CDM) by (destruct c; (left; reflexivity) || (right; discriminate)).
  destruct D as [->|Hc].
  - destruct (dm_fromobject_gen_ok false _ (dm_class_ok CDM) _ h src a dimensions partitioning sh g dm_fo_spec Hr Hp Ha HC)
      as (d & h' & E1 & E2 & E3 & E4 & E5 & E6 & E7 & E8).
    exists d, h'. auto 10.
  - fold (dm_fromobject h src a dimensions partitioning c). rewrite G by assumption.
    assert (HC' : class_ok c (group_shape sh (dm_rdims (dm_is_buffer c) (zlen sh) dimensions partitioning)) (fo_get_unspec src a)
                   (fun r => fo_value src a g (promoted sh (dm_rdims (dm_is_buffer c) (zlen sh) dimensions partitioning) r)))
      by (destruct c; try congruence; exact HC).
    destruct (dm_fromobject_gen_ok (dm_is_buffer c) _ (class_ok c) _ h src a dimensions partitioning sh g (flat_fo_spec c) Hr Hp Ha HC')
      as (d & h' & E1 & E2 & E3 & E4 & E5 & E6 & E7).
    exists d, h'. split; [exact E1|]. split; [exact E2|]. split; [exact E3|]. split; [exact E4|]. split; [exact E5|].
    split; [exact E6|]. split; [exact E7|]. exact (F c Hc d E7).
Qed.

(** * Slices *)
Definition gathern (nix : list nind) (g : list Z) : list nind :=
  map (fun d => nth (Z.to_nat d) nix NNone) g.

(** Number of kept axes before axis [a]. *)
Definition new_axis (nix : list nind) (a : Z) : Z :=
  zlen (filter (fun i => negb (is_int_item i)) (firstn (Z.to_nat a) nix)).
Definition kept (nix : list nind) (g : list Z) : list Z :=
  flat_map (fun a => if is_int_item (nth (Z.to_nat a) nix NNone) then [] else [new_axis nix a]) g.

Lemma axis_map_length nix : forall k, length (axis_map nix k) = length nix.
Proof. induction nix as [|[] nix IH]; intros k; cbn [axis_map length]; auto. Qed.

Lemma axis_map_nth nix : forall k a, (a < length nix)%nat ->
  nth a (axis_map nix k) None
  = if is_int_item (nth a nix NNone) then None
    else Some (k + zlen (filter (fun i => negb (is_int_item i)) (firstn a nix))).
Proof.
  induction nix as [|i nix IH]; intros k [|a] Ha; cbn [length] in Ha; try lia.
  - destruct i; cbn; auto; do 2 f_equal; unfold zlen; cbn; lia.
  - destruct i as [z|r|]; cbn [axis_map nth firstn filter is_int_item negb];
      rewrite IH by lia; [reflexivity| |];
      (destruct (is_int_item (nth a nix NNone)); [reflexivity|]; f_equal; unfold zlen; cbn [length]; lia).
Qed.

Lemma mapM_gathern nix g : axes_in (zlen nix) g -> mapM (pyget nix) g = Ok (gathern nix g).
Proof.
  intros H. induction H as [|a g Ha H IH]; cbn [mapM gathern map]; [reflexivity|].
  rewrite (pyget_ok _ _ NNone) by assumption. cbn [bind]. rewrite IH. reflexivity.
Qed.

Lemma kept_axes_ok nix g : axes_in (zlen nix) g -> kept_axes (axis_map nix 0) g = Ok (kept nix g).
Proof.
  intros H. induction H as [|a g Ha H IH]; cbn [kept_axes kept flat_map]; [reflexivity|].
  rewrite (pyget_ok _ _ None) by (unfold zlen in *; now rewrite axis_map_length). cbn [bind]. rewrite IH.
  cbn [bind]. rewrite axis_map_nth by (unfold zlen in Ha; lia).
  destruct (is_int_item (nth (Z.to_nat a) nix NNone)); reflexivity.
Qed.

Lemma kept_concat nix rdims : concat (map (kept nix) rdims) = kept nix (concat rdims).
Proof.
  induction rdims as [|g gs IH]; cbn [map concat]; [reflexivity|]. rewrite IH. unfold kept.
  now rewrite flat_map_app.
Qed.

Lemma zseq_front n : 0 <= n -> zseq (n + 1) = 0 :: map (fun x => x + 1) (zseq n).
Proof.
  intros Hn. unfold zseq. replace (Z.to_nat (n + 1)) with (S (Z.to_nat n)) by lia. cbn [seq map].
  f_equal. rewrite <- seq_shift, !map_map. apply map_ext. intros; lia.
Qed.

Lemma kept_zseq nix sh : normal_index nix sh -> kept nix (zseq (zlen nix)) = zseq (zlen (n_shape nix sh)).
Proof.
  intros H. induction H as [|i n nix sh Hi H IH]; [reflexivity|].
  rewrite zlen_cons, Z.add_comm, zseq_front by apply zlen_nonneg.
  unfold kept in *. cbn [flat_map]. rewrite flat_map_concat_map, map_map, <- flat_map_concat_map.
  assert (E : flat_map (fun x => if is_int_item (nth (Z.to_nat (x + 1)) (i :: nix) NNone) then []
                                 else [new_axis (i :: nix) (x + 1)]) (zseq (zlen nix))
            = map (fun x => (if is_int_item i then 0 else 1) + x) (zseq (zlen (n_shape nix sh)))).
  { rewrite <- IH. rewrite flat_map_concat_map, flat_map_concat_map, concat_map, map_map. f_equal.
    apply map_ext_in. intros x Hx. apply in_map_iff in Hx. destruct Hx as (k & <- & _).
    replace (Z.to_nat (Z.of_nat k + 1)) with (S (Z.to_nat (Z.of_nat k))) by lia. cbn [nth].
    destruct (is_int_item (nth (Z.to_nat (Z.of_nat k)) nix NNone)); [reflexivity|]. cbn [map]. f_equal.
    unfold new_axis. replace (Z.to_nat (Z.of_nat k + 1)) with (S (Z.to_nat (Z.of_nat k))) by lia.
    cbn [firstn filter]. destruct (is_int_item i); cbn [negb]; unfold zlen; cbn [length]; lia. }
  rewrite E. change (Z.to_nat 0) with 0%nat. cbn [nth]. destruct i as [z|r|]; cbn [is_int_item n_shape app].
  - rewrite (map_ext _ (fun x => x)) by (intros; lia). apply map_id.
  - rewrite zlen_cons, (Z.add_comm 1), zseq_front by apply zlen_nonneg. unfold new_axis. cbn [Z.to_nat firstn filter].
    f_equal. apply map_ext. intros; lia.
  - rewrite zlen_cons, (Z.add_comm 1), zseq_front by apply zlen_nonneg. unfold new_axis. cbn [Z.to_nat firstn filter].
    f_equal. apply map_ext. intros; lia.
Qed.

Lemma normal_index_length nix sh : normal_index nix sh -> length nix = length sh.
Proof. intros H. induction H; cbn; congruence. Qed.

Lemma normal_index_zlen nix sh : normal_index nix sh -> zlen nix = zlen sh.
Proof. intros H. unfold zlen. now rewrite (normal_index_length _ _ H). Qed.

Lemma kept_perm nix sh rdims : normal_index nix sh -> Permutation (concat rdims) (zseq (zlen sh)) ->
  Permutation (concat (map (kept nix) rdims)) (zseq (zlen (n_shape nix sh))).
Proof.
  intros Hn Hp. rewrite kept_concat, <- (kept_zseq nix sh Hn). unfold kept. apply Permutation_flat_map.
  now rewrite (normal_index_zlen nix sh Hn).
Qed.

Lemma znth_cons x l a : 0 <= a -> znth (a + 1) (x :: l) = znth a l.
Proof. intros H. unfold znth. replace (Z.to_nat (a + 1)) with (S (Z.to_nat a)) by lia. reflexivity. Qed.

Lemma new_axis_cons i nix a : 0 <= a ->
  new_axis (i :: nix) (a + 1) = new_axis nix a + (if is_int_item i then 0 else 1).
Proof.
  intros H. unfold new_axis. replace (Z.to_nat (a + 1)) with (S (Z.to_nat a)) by lia.
  cbn [firstn filter]. destruct (is_int_item i); cbn [negb]; unfold zlen; cbn [length]; lia.
Qed.

Lemma new_axis_nonneg nix a : 0 <= new_axis nix a.
Proof. apply zlen_nonneg. Qed.

(** One axis of a slice. *)
Definition item_count (i : nind) (n : Z) : Z := match i with NSl r => r_count r | _ => n end.
Definition item_source (i : nind) (n x : Z) : Z :=
  match i with NInt z => z | NSl r => r_start r mod n + x * r_step r | NNone => x end.

Lemma n_shape_at nix sh : normal_index nix sh -> forall a, 0 <= a < zlen sh ->
  is_int_item (nth (Z.to_nat a) nix NNone) = false ->
  0 <= new_axis nix a < zlen (n_shape nix sh)
  /\ znth (new_axis nix a) (n_shape nix sh) = item_count (nth (Z.to_nat a) nix NNone) (znth a sh).
Proof.
  intros H. induction H as [|i n nix sh Hi H IH]; intros a Ha Hint; [cbn in Ha; lia|].
  rewrite zlen_cons in Ha. assert (D : a = 0 \/ 0 <= a - 1) by lia. destruct D as [->|D].
  - change (Z.to_nat 0) with 0%nat in *. cbn [nth] in *. unfold new_axis. cbn [Z.to_nat firstn filter].
    pose proof (zlen_nonneg (n_shape nix sh)).
    destruct i as [z|r|]; [discriminate| |]; cbn [n_shape]; rewrite zlen_cons; (split; [change (zlen (@nil nind)) with 0; lia|reflexivity]).
  - replace a with (a - 1 + 1) in Hint |- * by lia.
    assert (E : nth (Z.to_nat (a - 1 + 1)) (i :: nix) NNone = nth (Z.to_nat (a - 1)) nix NNone)
      by (replace (Z.to_nat (a - 1 + 1)) with (S (Z.to_nat (a - 1))) by lia; reflexivity).
    rewrite E in *. rewrite new_axis_cons, znth_cons by lia.
    destruct (IH (a - 1) ltac:(lia) Hint) as [I1 I2].
    destruct i as [z|r|]; cbn [is_int_item n_shape].
    + rewrite Z.add_0_r. auto.
    + rewrite zlen_cons, znth_cons by lia. split; [lia|exact I2].
    + rewrite zlen_cons, znth_cons by lia. split; [lia|exact I2].
Qed.

Lemma n_source_at nix sh : normal_index nix sh -> forall j, length j = length (n_shape nix sh) ->
  forall a, 0 <= a < zlen sh ->
  znth a (n_source nix sh j)
  = item_source (nth (Z.to_nat a) nix NNone) (znth a sh) (znth (new_axis nix a) j).
Proof.
  intros H. induction H as [|i n nix sh Hi H IH]; intros j Hj a Ha; [cbn in Ha; lia|].
  rewrite zlen_cons in Ha. assert (D : a = 0 \/ 0 <= a - 1) by lia. destruct D as [->|D].
  - change (Z.to_nat 0) with 0%nat in *. cbn [nth] in *. unfold new_axis. cbn [Z.to_nat firstn filter].
    destruct i as [z|r|]; cbn [n_source n_shape] in *; [reflexivity| |];
      (destruct j as [|x j]; [cbn in Hj; lia|]; reflexivity).
  - replace a with (a - 1 + 1) by lia.
    assert (E : nth (Z.to_nat (a - 1 + 1)) (i :: nix) NNone = nth (Z.to_nat (a - 1)) nix NNone)
      by (replace (Z.to_nat (a - 1 + 1)) with (S (Z.to_nat (a - 1))) by lia; reflexivity).
    rewrite E, new_axis_cons by lia. rewrite (znth_cons n sh) by lia.
    pose proof (new_axis_nonneg nix (a - 1)).
    destruct i as [z|r|]; cbn [is_int_item n_shape n_source] in *.
    + rewrite znth_cons, Z.add_0_r by lia. apply IH; [exact Hj|lia].
    + destruct j as [|x j]; [cbn in Hj; lia|]. rewrite !znth_cons by lia. apply IH; [cbn in Hj; lia|lia].
    + destruct j as [|x j]; [cbn in Hj; lia|]. rewrite !znth_cons by lia. apply IH; [cbn in Hj; lia|lia].
Qed.

Lemma gathern_normal nix sh g : normal_index nix sh -> axes_in (zlen sh) g ->
  normal_index (gathern nix g) (gather sh g).
Proof.
  intros Hn H. induction H as [|a g Ha H IH]; cbn [gathern gather map]; constructor; auto.
  clear - Hn Ha. revert a Ha. induction Hn as [|i n nix sh Hi H IH]; intros a Ha; [cbn in Ha; lia|].
  rewrite zlen_cons in Ha. unfold znth. assert (D : a = 0 \/ 0 <= a - 1) by lia. destruct D as [->|D].
  - exact Hi.
  - replace (Z.to_nat a) with (S (Z.to_nat (a - 1))) by lia. cbn [nth]. apply (IH (a - 1)). lia.
Qed.

Lemma gathern_shape nix sh g : normal_index nix sh -> axes_in (zlen sh) g ->
  n_shape (gathern nix g) (gather sh g) = gather (n_shape nix sh) (kept nix g).
Proof.
  intros Hn H. induction H as [|a g Ha H IH]; [reflexivity|].
  cbn [gathern gather map kept flat_map].
  assert (S : forall b, b = is_int_item (nth (Z.to_nat a) nix NNone) ->
    (if b then [] else [new_axis nix a]) ++ kept nix g
    = if b then kept nix g else new_axis nix a :: kept nix g) by (intros []; reflexivity).
  fold (kept nix g). rewrite (S _ eq_refl). fold (gathern nix g) (gather sh g).
  pose proof (n_shape_at nix sh Hn a Ha) as X.
  destruct (nth (Z.to_nat a) nix NNone) as [z|r|] eqn:E; cbn [is_int_item n_shape] in *.
  - exact IH.
  - destruct (X eq_refl) as [_ X2]. cbn [gather map]. rewrite X2. cbn [item_count]. f_equal. exact IH.
  - destruct (X eq_refl) as [_ X2]. cbn [gather map]. rewrite X2. cbn [item_count]. f_equal. exact IH.
Qed.

Lemma gathern_source nix sh g j : normal_index nix sh -> axes_in (zlen sh) g ->
  length j = length (n_shape nix sh) ->
  n_source (gathern nix g) (gather sh g) (gather j (kept nix g)) = gather (n_source nix sh j) g.
Proof.
  intros Hn H Hj. induction H as [|a g Ha H IH]; [reflexivity|].
  cbn [gathern gather map kept flat_map].
  assert (S : forall b, b = is_int_item (nth (Z.to_nat a) nix NNone) ->
    (if b then [] else [new_axis nix a]) ++ kept nix g
    = if b then kept nix g else new_axis nix a :: kept nix g) by (intros []; reflexivity).
  fold (kept nix g). rewrite (S _ eq_refl). fold (gathern nix g) (gather sh g) (gather (n_source nix sh j) g).
  rewrite (n_source_at nix sh Hn j Hj a Ha).
  destruct (nth (Z.to_nat a) nix NNone) as [z|r|] eqn:E; cbn [is_int_item n_source gather map item_source] in *;
    f_equal; exact IH.
Qed.

Lemma kept_axes_in nix sh g : normal_index nix sh -> axes_in (zlen sh) g ->
  axes_in (zlen (n_shape nix sh)) (kept nix g).
Proof.
  intros Hn H. induction H as [|a g Ha H IH]; [constructor|]. cbn [kept flat_map].
  destruct (is_int_item (nth (Z.to_nat a) nix NNone)) eqn:E; [exact IH|].
  constructor; [|exact IH]. now apply n_shape_at.
Qed.

Lemma in_box_gather_in dims i sh : in_box i sh -> axes_in (zlen sh) dims -> in_box (gather i dims) (gather sh dims).
Proof.
  intros Hi H. induction H as [|a g Ha H IH]; cbn [gather map]; constructor; auto.
  clear - Hi Ha. revert a Ha. induction Hi as [|x n i sh Hx H IH]; intros a Ha; [cbn in Ha; lia|].
  rewrite zlen_cons in Ha. unfold znth. assert (D : a = 0 \/ 0 <= a - 1) by lia. destruct D as [->|D].
  - exact Hx.
  - replace (Z.to_nat a) with (S (Z.to_nat (a - 1))) by lia. cbn [nth]. apply (IH (a - 1)). lia.
Qed.

(** The groups of the slice. *)
Fixpoint slice_groups (nix : list nind) (sh : list Z) (rdims rstrides : list (list Z)) (roffset : list Z)
    : list Z * list (list Z) * list ind * list (list Z) :=
  match rdims, rstrides, roffset with
  | g :: gs, st :: sts, o :: os =>
      let '(ro, rs, di, rd) := slice_groups nix sh gs sts os in
      let k := n_offset (gathern nix g) (gather sh g) st in
      match kept nix g with
      | [] => (ro, rs, IInt k :: di, rd)
      | t => (o + k :: ro, n_strides (gathern nix g) st :: rs, INone :: di, t :: rd)
      end
  | _, _, _ => ([], [], [], [])
  end.

Lemma dm_slice_groups_ok nix sh : positive sh -> normal_index nix sh -> forall rdims rstrides roffset,
  axes_in (zlen sh) (concat rdims) -> Forall2 (fun g st => length g = length st) rdims rstrides ->
  length roffset = length rdims ->
  dm_slice_groups nix (axis_map nix 0) rdims (map (gather sh) rdims) rstrides roffset
  = Ok (slice_groups nix sh rdims rstrides roffset).
Proof.
  intros Hp Hn. induction rdims as [|g gs IH]; intros rstrides roffset Ha Hs Ho; [reflexivity|].
  inversion Hs as [|? st ? sts H1 H2]; subst. destruct roffset as [|o os]; [cbn in Ho; lia|].
  cbn [concat] in Ha. apply Forall_app in Ha. destruct Ha as [Ha1 Ha2].
  cbn [dm_slice_groups map slice_groups].
  rewrite mapM_gathern by (now rewrite (normal_index_zlen _ _ Hn)). cbn [bind].
  rewrite index_strided_ok; cycle 1.
  { eapply gather_positive; [exact Ha1|reflexivity|exact Hp]. }
  { now apply gathern_normal. }
  { rewrite gather_length. congruence. }
  cbn [bind]. rewrite gathern_shape by assumption.
  rewrite kept_axes_ok by (now rewrite (normal_index_zlen _ _ Hn)). cbn [tl].
  rewrite IH by (auto; cbn in Ho; lia).
  destruct (kept nix g) as [|x t] eqn:E; cbn [gather map bind];
    destruct (slice_groups nix sh gs sts os) as [[[ro rs] di] rd];
    rewrite Z.add_0_l; reflexivity.
Qed.

(** A slice is safe when each group whose axes are all fixed by integers starts
    at offset zero; the offset of such a group is dropped by DM.__getitem__.
    [fx] tells which axes are fixed. *)
Definition group_fixed (fx : list bool) (g : list Z) : bool :=
  forallb (fun a => nth (Z.to_nat a) fx false) g.
Fixpoint safe_fixed (s : storage) (fx : list bool) : Prop :=
  match s with
  | SBuffer _ => Forall (fun b => b = false) fx
  | SDM _ rdims _ _ roffset d =>
      Forall2 (fun g o => group_fixed fx g = true -> o = 0) rdims roffset
      /\ safe_fixed d (map (group_fixed fx) rdims)
  | _ => True
  end.
Definition is_int_ind (i : ind) : bool := match i with IInt _ => true | _ => false end.
Definition safe_index (s : storage) (ix : pyindex) : Prop :=
  match s with
  | SBuffer _ => ix = XItem INone \/ ix = XTuple [INone]
  | _ => safe_fixed s (map is_int_ind (index_items ix))
  end.

Lemma kept_nil nix g : kept nix g = [] <-> forallb (fun a => is_int_item (nth (Z.to_nat a) nix NNone)) g = true.
Proof.
  induction g as [|a g IH]; cbn [kept flat_map forallb]; [tauto|].
  destruct (is_int_item (nth (Z.to_nat a) nix NNone)); cbn [andb app]; [exact IH|]. split; discriminate.
Qed.

Lemma group_fixed_kept ix sh g : axes_in (zlen sh) g ->
  group_fixed (map is_int_ind ix) g
  = match kept (norm_items ix sh) g with [] => true | _ => false end.
Proof.
  intros Ha.
  assert (E : group_fixed (map is_int_ind ix) g
              = forallb (fun a => is_int_item (nth (Z.to_nat a) (norm_items ix sh) NNone)) g).
  { unfold group_fixed. induction Ha as [|a g Ha H IH]; cbn [forallb]; [reflexivity|]. f_equal; [|exact IH].
    clear - Ha. assert (Hk : (Z.to_nat a < length sh)%nat) by (unfold zlen in Ha; lia).
    generalize dependent (Z.to_nat a). clear Ha. revert ix.
    induction sh as [|n sh IH]; intros ix k Hk; cbn [length] in Hk; [lia|].
    destruct ix as [|i ix].
    - destruct k; [reflexivity|]. cbn [map nth norm_items]. rewrite <- (IH [] k) by lia. destruct k; reflexivity.
    - destruct k as [|k].
      + destruct i; reflexivity.
      + destruct i; cbn [map nth norm_items]; apply IH; lia. }
  rewrite E. pose proof (kept_nil (norm_items ix sh) g) as K.
  destruct (kept (norm_items ix sh) g), (forallb _ g); try reflexivity.
  - destruct K as [K _]. discriminate (K eq_refl).
  - destruct K as [_ K]. discriminate (K eq_refl).
Qed.

Definition plain_item (i : ind) : Prop := match i with IInt _ | INone => True | _ => False end.

Lemma slice_groups_lengths nix sh : forall rdims rstrides roffset,
  Forall2 (fun g st => length g = length st) rdims rstrides -> length roffset = length rdims ->
  let '(ro, rs, di, rd) := slice_groups nix sh rdims rstrides roffset in
  length ro = length rd /\ length di = length rdims
  /\ rd = filter (fun t => match t with [] => false | _ => true end) (map (kept nix) rdims)
  /\ map is_int_ind di = map (fun g => match kept nix g with [] => true | _ => false end) rdims
  /\ Forall plain_item di
  /\ (forall ds, length ds = length rdims -> length (items_shape di ds) = length rd).
Proof.
  induction rdims as [|g gs IH]; intros rstrides roffset Hs Ho; cbn [slice_groups].
  - repeat split; auto. intros [|? ?] H; [reflexivity|discriminate].
  - inversion Hs as [|? st ? sts H1 H2]; subst. destruct roffset as [|o os]; [cbn in Ho; lia|].
    specialize (IH sts os H2 ltac:(cbn in Ho; lia)).
    destruct (slice_groups nix sh gs sts os) as [[[ro rs] di] rd].
    destruct IH as (I1 & I2 & I3 & I4 & I5 & I6). cbn [map filter].
    destruct (kept nix g) as [|x t] eqn:E; cbn [length map is_int_ind].
    + repeat split; auto; try congruence. { constructor; [exact I|exact I5]. }
      intros [|n ds] H; [discriminate|]. cbn [items_shape]. apply I6. cbn in H. lia.
    + repeat split; auto; try congruence. { constructor; [exact I|exact I5]. }
      intros [|n ds] H; [discriminate|]. cbn [items_shape length]. rewrite I6; [reflexivity|]. cbn in H. lia.
Qed.

Lemma slice_groups_strides nix sh : normal_index nix sh -> forall rdims rstrides roffset,
  axes_in (zlen sh) (concat rdims) ->
  Forall2 (fun g st => length g = length st) rdims rstrides -> length roffset = length rdims ->
  let '(ro, rs, di, rd) := slice_groups nix sh rdims rstrides roffset in
  Forall2 (fun g st => length g = length st) rd rs.
Proof.
  intros Hn. induction rdims as [|g gs IH]; intros rstrides roffset Ha Hs Ho; cbn [slice_groups].
  - constructor.
  - inversion Hs as [|? st ? sts H1 H2]; subst. destruct roffset as [|o os]; [cbn in Ho; lia|].
    cbn [concat] in Ha. apply Forall_app in Ha. destruct Ha as [Ha1 Ha2].
    specialize (IH sts os Ha2 H2 ltac:(cbn in Ho; lia)).
    destruct (slice_groups nix sh gs sts os) as [[[ro rs] di] rd].
    destruct (kept nix g) as [|x t] eqn:E; [exact IH|].
    constructor; [|exact IH].
    rewrite (n_strides_length _ (gather sh g)) by (rewrite gather_length; congruence).
    rewrite gathern_shape by assumption. rewrite gather_length. now rewrite E.
Qed.

Lemma slice_groups_index nix sh j : positive sh -> normal_index nix sh -> in_box j (n_shape nix sh) ->
  forall rdims rstrides roffset ds,
  axes_in (zlen sh) (concat rdims) -> Forall2 (fun g st => length g = length st) rdims rstrides ->
  Forall2 (fun g o => kept nix g = [] -> o = 0) rdims roffset ->
  in_box (dm_index rdims rstrides roffset (n_source nix sh j)) ds ->
  let '(ro, rs, di, rd) := slice_groups nix sh rdims rstrides roffset in
  in_box (dm_index rd rs ro j) (items_shape di ds)
  /\ items_source di ds (dm_index rd rs ro j) = dm_index rdims rstrides roffset (n_source nix sh j).
Proof.
  intros Hp Hn Hj. induction rdims as [|g gs IH]; intros rstrides roffset ds Ha Hs Ho Hb; cbn [slice_groups].
  - cbn [dm_index] in *. inversion Hb; subst. split; [constructor|reflexivity].
  - inversion Hs as [|? st ? sts H1 H2]; subst. inversion Ho as [|? o ? os Ho1 Ho2]; subst.
    cbn [concat] in Ha. apply Forall_app in Ha. destruct Ha as [Ha1 Ha2].
    cbn [dm_index] in Hb |- *. inversion Hb as [|x n xs ns Hx Hb']; subst.
    specialize (IH sts os ns Ha2 H2 Ho2 Hb').
    destruct (slice_groups nix sh gs sts os) as [[[ro rs] di] rd]. destruct IH as [I1 I2].
    assert (Hg : in_box (gather j (kept nix g)) (n_shape (gathern nix g) (gather sh g))).
    { rewrite gathern_shape by assumption. apply in_box_gather_in; [exact Hj|]. now apply kept_axes_in. }
    assert (Hd := n_offset_dot (gathern nix g) (gather sh g) st (gather j (kept nix g))
                    (gathern_normal _ _ _ Hn Ha1) ltac:(rewrite gather_length; congruence) Hg).
    rewrite gathern_source in Hd by (auto; now apply in_box_len).
    destruct (kept nix g) as [|y t] eqn:E.
    + cbn [items_shape items_source]. split; [exact I1|]. rewrite I2. f_equal.
      rewrite (Ho1 eq_refl) in *. cbn [gather map zdot] in Hd. rewrite Z.mod_small by lia. lia.
    + cbn [items_shape items_source dm_index]. split.
      * constructor; [|exact I1]. lia.
      * rewrite I2. f_equal. lia.
Qed.

(** * Reading through the classes *)
Definition sparse_based : storage -> Prop :=
  fix go s := match s with
              | SCOO _ _ _ | SFlatCOO _ _ _ | SCSR _ _ _ _ => True
              | SDM _ _ _ _ _ d => go d
              | _ => False
              end.
Definition dense_based : storage -> Prop :=
  fix go s := match s with
              | SBuffer _ | SStrided _ => True
              | SDM _ _ _ _ _ d => go d
              | _ => False
              end.

Lemma source_index_in_box ix sh j : positive sh -> ok_index ix sh -> in_box j (slice_shape ix sh) ->
  in_box (source_index ix sh j) sh.
Proof.
  intros Hp [Hi _] Hj. unfold source_index. rewrite <- norm_items_source by assumption.
  apply n_source_in_box; auto.
  - now apply norm_items_normal.
  - now rewrite norm_items_shape.
Qed.

Lemma sparse_slice_repr h s f ix : (exists E, entries h s E /\ forall i, in_box i (shape_of s) -> f i = lookup E (unspecified_of s) i) ->
  is_sparse s -> positive (shape_of s) -> ok_index ix (shape_of s) ->
  slice_shape ix (shape_of s) <> [] ->
  exists s' h', getitem h s ix = Ok (ISto s', h')
    /\ shape_of s' = slice_shape ix (shape_of s)
    /\ unspecified_of s' = unspecified_of s
    /\ extends h h'
    /\ repr h' s' (fun j => f (source_index ix (shape_of s) j))
    /\ fresh h s' /\ is_sparse s'.
Proof.
  intros (E & HE & Hf) Hs Hp Hok Hne.
  destruct (getitem_sparse_slice h s E ix HE Hp Hok Hne) as (s' & h' & E' & X1 & X2 & X3 & X4 & X5 & X6 & X7 & X8).
  exists s', h'. split; [exact X1|]. split; [exact X2|]. split; [exact X3|]. split; [exact X4|].
  assert (Hs' : is_sparse s') by (destruct s, s'; try contradiction; exact I).
  split; [|split; [exact X5|exact Hs']].
  assert (Ho : ordered (shape_of s) E) by (destruct s; try contradiction; apply HE).
  assert (Ho' : ordered (shape_of s') E') by (destruct s'; try contradiction; apply X6).
  assert (R : exists E', entries h' s' E'
     /\ forall j, in_box j (shape_of s') -> f (source_index ix (shape_of s) j) = lookup E' (unspecified_of s') j).
  { exists E'. split; [exact X6|]. intros j Hj. rewrite X2 in Hj. rewrite X3.
    rewrite (wselects_lookup _ (shape_of s) E (slice_shape ix (shape_of s)) E' (source_index ix (shape_of s)) j);
      auto; [|now rewrite <- X2].
    apply Hf. now apply source_index_in_box. }
  destruct s'; try contradiction; exact R.
Qed.

(** Position in the data list of element [i] of a Buffer, a Strided or a DM over
    them. *)
Fixpoint spot (s : storage) (i : list Z) : Z :=
  match s with
  | SBuffer b => boff b + nth 0 i 0
  | SStrided t => spos t i
  | SDM _ rd _ rs ro d => spot d (dm_index rd rs ro i)
  | _ => 0
  end.

Lemma getitem_slice_full : forall s h f ix, repr h s f -> positive (shape_of s) -> ok_index ix (shape_of s) ->
  slice_shape ix (shape_of s) <> [] -> safe_index s ix ->
  exists s' h', getitem h s ix = Ok (ISto s', h')
    /\ shape_of s' = slice_shape ix (shape_of s)
    /\ unspecified_of s' = unspecified_of s
    /\ extends h h'
    /\ repr h' s' (fun j => f (source_index ix (shape_of s) j))
    /\ (dense_based s -> h' = h /\ addrs s' = addrs s /\ dense_based s')
    /\ (sparse_based s -> fresh h s' /\ sparse_based s')
    /\ (dense_based s -> forall j, in_box j (slice_shape ix (shape_of s)) ->
          spot s' j = spot s (source_index ix (shape_of s) j)).
Proof.
  induction s as [b|t|sh ind d|sh fi d|sh cr co d|sh ch a b c d|sh rd rsh rs ro d IH];
    intros h f ix Hr Hp Hok Hne Hsafe.
  - (* Buffer *)
    cbn [safe_index shape_of] in *.
    assert (E : getitem h (SBuffer b) ix = Ok (ISto (SBuffer b), h)) by (destruct Hsafe as [->| ->]; reflexivity).
    assert (Es : slice_shape ix [bsize b] = [bsize b]) by (destruct Hsafe as [->| ->]; reflexivity).
    exists (SBuffer b), h. split; [exact E|]. split; [now rewrite Es|]. split; [reflexivity|].
    split; [apply extends_refl|]. split; [|split; [intros _; repeat split|split; [intros []|]]].
    + eapply repr_ext; [|exact Hr]. cbn [shape_of]. intros i Hi. f_equal.
      inversion Hi as [|x ? i' ? Hx Hi']; subst. inversion Hi'; subst. destruct Hsafe as [->| ->]; reflexivity.
    + intros _ i Hi. f_equal. rewrite Es in Hi.
      inversion Hi as [|x ? i' ? Hx Hi']; subst. inversion Hi'; subst. destruct Hsafe as [->| ->]; reflexivity.
  - (* Strided *)
    destruct Hr as (l & Hl & Ht & Hf). cbn [shape_of] in *.
    destruct (strided_slice h t l ix Hl Ht Hp Hok Hne) as (t' & E1 & E2 & E3 & E4 & E5 & E6).
    exists (SStrided t'), h. cbn [getitem]. rewrite E1. cbn [bind]. split; [reflexivity|].
    split; [exact E2|]. split; [exact E4|]. split; [apply extends_refl|].
    split; [|split; [intros _|split; [intros []|]]].
    + cbn [repr]. exists l. rewrite E3. split; [exact Hl|]. split; [exact E5|].
      intros j Hj. destruct (E6 j Hj) as [B P]. rewrite P. now apply Hf.
    + split; [reflexivity|]. split; [|exact I]. unfold addrs. cbn. now rewrite E3.
    + intros _ j Hj. cbn [spot]. rewrite <- E2 in Hj. destruct (E6 j Hj) as [_ P]. exact P.
  - destruct (sparse_slice_repr h (SCOO sh ind d) f ix Hr I Hp Hok Hne) as (s' & h' & X1 & X2 & X3 & X4 & X5 & X6 & X7).
    exists s', h'. repeat (split; [assumption|]). split; [intros []|]. split; [|intros []]. intros _. split; [exact X6|].
    destruct s'; try contradiction; exact I.
  - destruct (sparse_slice_repr h (SFlatCOO sh fi d) f ix Hr I Hp Hok Hne) as (s' & h' & X1 & X2 & X3 & X4 & X5 & X6 & X7).
    exists s', h'. repeat (split; [assumption|]). split; [intros []|]. split; [|intros []]. intros _. split; [exact X6|].
    destruct s'; try contradiction; exact I.
  - destruct (sparse_slice_repr h (SCSR sh cr co d) f ix Hr I Hp Hok Hne) as (s' & h' & X1 & X2 & X3 & X4 & X5 & X6 & X7).
    exists s', h'. repeat (split; [assumption|]). split; [intros []|]. split; [|intros []]. intros _. split; [exact X6|].
    destruct s'; try contradiction; exact I.
  - destruct Hr as (E & HE & _). destruct HE.
  - (* DM *)
    destruct Hr as (g & Hd & Hdm & Hf). cbn [shape_of] in *. destruct Hsafe as [Hs1 Hs2].
    pose proof Hok as [Hitems _]. set (items := index_items ix) in *.
    set (nix := norm_items items sh).
    assert (Hn : normal_index nix sh) by now apply norm_items_normal.
    assert (Es : n_shape nix sh = slice_shape ix sh) by now apply norm_items_shape.
    pose proof Hdm as [Dn Dg Dp Drs Dst Dro Dbox Dinj].
    assert (Haxes : axes_in (zlen sh) (concat rd)) by now apply perm_axes.
    cbn [getitem]. rewrite normalize_index_ok by assumption. fold items nix. cbn [bind].
    assert (Eel : is_element_index nix sh = false).
    { apply not_true_iff_false. intros E. apply element_n_shape in E; [|exact Hn]. congruence. }
    rewrite Eel. rewrite normal_index_id by assumption. cbn [bind].
    rewrite shape_strided_ok by assumption. cbn [bind]. rewrite Drs.
    rewrite dm_slice_groups_ok by assumption. cbn [bind].
    pose proof (slice_groups_lengths nix sh rd rs ro Dst Dro) as L.
    pose proof (slice_groups_strides nix sh Hn rd rs ro Haxes Dst Dro) as S.
    pose proof (fun j Hj => slice_groups_index nix sh j Hp Hn Hj rd rs ro (shape_of d) Haxes Dst) as X.
    assert (Ho0 : Forall2 (fun g o => kept nix g = [] -> o = 0) rd ro).
    { assert (Hs1' : Forall2 (fun g o => axes_in (zlen sh) g ->
               group_fixed (map is_int_ind items) g = true -> o = 0) rd ro).
      { clear - Hs1. induction Hs1; constructor; auto. }
      clear - Hs1' Haxes. induction Hs1' as [|g o gs os H1 H2 IH]; [constructor|].
      cbn [concat] in Haxes. apply Forall_app in Haxes. destruct Haxes as [A1 A2]. constructor; [|now apply IH].
      intros E. apply H1; [exact A1|]. rewrite (group_fixed_kept items sh g A1). fold nix. now rewrite E. }
    set (origin := map (fun _ : Z => 0) sh).
    assert (Horigin : in_box origin sh).
    { unfold origin. clear - Hp. induction Hp; cbn [map]; constructor; auto. lia. }
    assert (Hpd : positive (shape_of d)) by exact (in_box_positive _ _ (Dbox _ Horigin)).
    assert (Hld : length (shape_of d) = length rd).
    { rewrite <- (in_box_len _ _ (Dbox _ Horigin)). clear - Dst Dro. revert ro Dro.
      induction Dst as [|g st gs sts H1 H2 IH]; intros [|o os] Ho; cbn in Ho; try lia; cbn [dm_index length]; [reflexivity|].
      rewrite IH; lia. }
    specialize (fun j Hj => X j Hj Ho0 (Dbox _ (n_source_in_box nix sh j Hp Hn Hj))).
    destruct (slice_groups nix sh rd rs ro) as [[[ro' rs'] di] rd'].
    destruct L as (L1 & L2 & L3 & L4 & L5 & L6).
    assert (Hrd' : Permutation (concat rd') (zseq (zlen (n_shape nix sh)))).
    { rewrite L3. assert (C : forall l : list (list Z), concat (filter (fun t => match t with [] => false | _ => true end) l) = concat l).
      { induction l as [|[|z l0] l IHl]; cbn [filter concat app]; auto. now rewrite IHl. }
      rewrite C. now apply kept_perm. }
    assert (Hrdne : rd' <> []).
    { intros ->. cbn [concat] in Hrd'. apply Permutation_length in Hrd'. rewrite zseq_length_nat in Hrd'.
      rewrite Es in Hrd'. destruct (slice_shape ix sh); [congruence|]. unfold zlen in Hrd'. cbn [length] in Hrd'. lia. }
    assert (Hokd : ok_index (XTuple di) (shape_of d)).
    { split; [|right; cbn [index_items]; lia]. cbn [index_items]. eapply Forall_impl; [|exact L5].
      intros [| | |]; cbn; tauto. }
    assert (Hned : slice_shape (XTuple di) (shape_of d) <> []).
    { unfold slice_shape. cbn [index_items]. intros E. specialize (L6 (shape_of d) Hld). rewrite E in L6.
      destruct rd'; [congruence|discriminate]. }
    assert (Efx : map (group_fixed (map is_int_ind items)) rd = map is_int_ind di).
    { rewrite L4. clear - Haxes. induction rd as [|g gs IH]; cbn [map]; [reflexivity|].
      cbn [concat] in Haxes. apply Forall_app in Haxes. destruct Haxes as [A1 A2].
      rewrite (group_fixed_kept items sh g A1). fold nix. f_equal. now apply IH. }
    assert (Hsd : safe_index d (XTuple di)).
    { rewrite Efx in Hs2. destruct d; cbn [safe_index index_items]; try exact Hs2.
      cbn [safe_fixed] in Hs2. right. cbn [shape_of length] in Hld.
      destruct di as [|i [|? ?]]; cbn [length] in L2; try lia.
      inversion L5 as [|? ? Hi _]; subst. inversion Hs2 as [|? ? Hb _]; subst.
      destruct rd as [|g0 [|? ?]]; cbn [length] in L2; try lia.
      destruct i as [z|sl| |]; cbn in Hb, Hi; try discriminate; try contradiction; auto. }
    destruct (IH h g (XTuple di) Hd Hpd Hokd Hned Hsd) as (d' & h' & Y1 & Y2 & Y3 & Y4 & Y5 & Y6 & Y7 & Y8).
    destruct di as [|i0 di0] eqn:Edi; [cbn in L2; destruct rd; [congruence|discriminate]|]. rewrite <- Edi in *.
    rewrite Y1. cbn [bind]. rewrite mk_dm_ok by assumption. cbn [bind].
    eexists _, h'. split; [reflexivity|]. cbn [shape_of unspecified_of].
    split; [exact Es|]. split; [exact Y3|]. split; [exact Y4|]. split.
    { cbn [repr]. eexists. split; [exact Y5|]. split.
      - constructor; auto.
        + rewrite Es in *. rewrite <- Es. now apply n_shape_nonneg.
        + intros j Hj. rewrite Y2. apply X. exact Hj.
        + intros j j' Hj Hj' Hjj. apply (n_source_inj nix sh j j' Hn Hj Hj').
          apply Dinj; try (apply n_source_in_box; assumption).
          rewrite <- (proj2 (X j Hj)), <- (proj2 (X j' Hj')). now rewrite Hjj.
      - intros j Hj. unfold source_index at 2. cbn [index_items].
        rewrite (proj2 (X j Hj)). rewrite <- Hf by (apply n_source_in_box; assumption).
        f_equal. unfold source_index. fold items. symmetry. apply norm_items_source; auto.
        unfold slice_shape in Es. fold items in Es. now rewrite <- Es. }
    split; [exact Y6|]. split; [exact Y7|]. intros Hdb j Hj. cbn [spot].
    rewrite <- Es in Hj. rewrite (Y8 Hdb) by (apply X; exact Hj).
    unfold source_index at 1. cbn [index_items]. rewrite (proj2 (X j Hj)). f_equal. f_equal.
    unfold source_index. fold items. apply norm_items_source; auto.
    unfold slice_shape in Es. fold items in Es. now rewrite <- Es.
Qed.

Lemma getitem_slice : forall s h f ix, repr h s f -> positive (shape_of s) -> ok_index ix (shape_of s) ->
  slice_shape ix (shape_of s) <> [] -> safe_index s ix ->
  exists s' h', getitem h s ix = Ok (ISto s', h')
    /\ shape_of s' = slice_shape ix (shape_of s)
    /\ unspecified_of s' = unspecified_of s
    /\ extends h h'
    /\ repr h' s' (fun j => f (source_index ix (shape_of s) j))
    /\ (dense_based s -> h' = h /\ addrs s' = addrs s /\ dense_based s')
    /\ (sparse_based s -> fresh h s' /\ sparse_based s').
Proof.
  intros s h f ix Hr Hp Hok Hne Hs. destruct (getitem_slice_full s h f ix Hr Hp Hok Hne Hs) as (s' & h' & H).
  exists s', h'. tauto.
Qed.

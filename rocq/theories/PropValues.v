(** C89: what the arrays contain when [==] is not identity.

    In Python 0 == 0.0 == False and NaN != NaN.  [eqv x y] is [x == y], an
    arbitrary relation of which only one thing is assumed: no integer is equal to
    None.  The functions with the suffix _eq (Values.v) are those of Storage.v with
    [eqv] in place of structural equality. *)
From Coq Require Import Sorting.Sorted Permutation ZifyBool.
From Verif Require Import Py SliceTools Basics Storage Spec SliceFacts IndexFacts
  CompressFacts ReduceFacts SolverFacts SolveFacts Repr ReprFacts ViewFacts BuildFacts SparseFacts
  ConvFacts FromFacts DMFacts ReadFacts MapFacts ChainFacts EqFacts PropRead PropWrite PropEq Values ValueFacts.

(** ** Agreement *)
Lemma dict_get_in l k v : In (k, v) l -> exists w, dict_get l k = Some w.
Proof.
  induction l as [|p l IH]; [intros []|]. rewrite dict_get_cons. intros H. destruct (dict_get l k) as [w|] eqn:E; [eauto|].
  destruct H as [->|H].
  - cbn [fst snd]. rewrite (proj2 (key_eqb_eq k k) eq_refl). eauto.
  - destruct (IH H) as (w & Ew). congruence.
Qed.

Lemma dict_eq_veqb l m : dict_eq veqb l m = dict_eqb l m.
Proof.
  apply eq_true_iff_eq. unfold dict_eq, dict_eqb, dict_sub. rewrite !andb_true_iff, !forallb_forall. split; intros [H1 H2].
  - split; [exact H1|]. intros [k v] Hin. cbn [fst]. specialize (H2 _ Hin). cbn [fst] in H2.
    destruct (dict_get_in m k v Hin) as (w & Ew). rewrite Ew.
    destruct (dict_get l k) as [x|] eqn:Ex; [|discriminate].
    specialize (H1 _ (dict_get_key l k x Ex)). cbn [fst] in H1. rewrite Ex, Ew in H1.
    apply veqb_eq in H1. subst. apply veqb_refl.
  - split; [exact H1|]. intros [k v] Hin. specialize (H2 _ Hin). cbn [fst] in *.
    destruct (dict_get m k); [|discriminate]. now destruct (dict_get l k).
Qed.

Theorem C89_same_functions : forall c h src a u s t d p,
  fromobject_eq veqb c h src a = fromobject c h src a
  /\ dm_fromobject_eq veqb h src a d p c = dm_fromobject h src a d p c
  /\ as_storage_eq veqb c h s u = as_storage c h s u
  /\ copy_eq veqb h s u = copy h s u
  /\ equal_eq veqb h s t = equal h s (SrcSto t).
Proof.
  intros c h src a u s t d p. split; [destruct c; reflexivity|]. split; [destruct c; reflexivity|].
  split; [destruct c; reflexivity|]. split; [reflexivity|].
  unfold equal_eq, equal. destruct (elements h s); [|reflexivity]. cbn [bind]. destruct (elements h t); [|reflexivity].
  cbn [bind]. now rewrite dict_eq_veqb.
Qed.
Print Assumptions C89_same_functions.

(** ** fromobject *)
Definition no_int_is_None (eqv : pyval -> pyval -> bool) : Prop := forall z, eqv (VInt z) VNone = false.
Definition sparse_class (c : cls) : Prop := c = CCOO \/ c = CFlatCOO \/ c = CCSR.

(** The value [y] read where the source has [x]: the new unspecified value [u] if
    [x] is equal to the old one [su] or, in a sparse array, to [u]; [x] otherwise. *)
Definition taken (eqv : pyval -> pyval -> bool) (c : cls) (su u x y : pyval) : Prop :=
  (eqv x su = true -> y = u)
  /\ (eqv x su = false -> sparse_class c -> eqv x u = true -> y = u)
  /\ (eqv x su = false -> (sparse_class c -> eqv x u = false) -> y = x).

Lemma not_sparse c : match c with CCOO | CFlatCOO | CCSR => True | _ => ~ sparse_class c end.
Proof. destruct c; try exact I; intros [E|[E|E]]; discriminate. Qed.

Lemma taken_read eqv c su u x : taken eqv c su u x (read_eq eqv c u (conv_eq eqv su u x)).
Proof.
  unfold taken, read_eq, conv_eq. destruct (eqv x su).
  - split; [intros _|split; discriminate]. destruct c; try reflexivity; now destruct (eqv u u).
  - split; [discriminate|]. pose proof (not_sparse c) as Hn. unfold sparse_class in *.
    split; intros _.
    + intros Hs E. destruct c; try contradiction; now rewrite E.
    + intros E. destruct c; try reflexivity; rewrite E by auto; reflexivity.
Qed.

(** Which elements a sparse array stores: those not equal to its unspecified
    value after the replacement. *)
Definition is_stored (eqv : pyval -> pyval -> bool) (su u x y : pyval) : Prop :=
  (eqv x su = true /\ y = u /\ eqv u u = false) \/ (eqv x su = false /\ y = x /\ eqv x u = false).

Lemma is_stored_iff eqv su u x y : is_stored eqv su u x y <-> y = conv_eq eqv su u x /\ eqv (conv_eq eqv su u x) u = false.
Proof.
  unfold is_stored, conv_eq. destruct (eqv x su); split.
  - intros [(_ & -> & H)|(H & _)]; [auto|discriminate].
  - intros [-> H]. auto.
  - intros [(H & _)|(_ & -> & H)]; [discriminate|auto].
  - intros [-> H]. auto.
Qed.

Theorem C89_fromobject : forall eqv c h v sh u,
  no_int_is_None eqv -> regular sh v -> class_rank c sh ->
  let u' := chosen VNone u in
  (c = CCSR -> exists i x, in_box i sh /\ nested_at v i = Some x /\ eqv x VNone = false /\ eqv x u' = false) ->
  exists s h', fromobject_eq eqv c h (SrcSeq v) (fo_unspecified u) = Ok (s, h')
    /\ is_class c s /\ shape_of s = sh /\ unspecified_of s = u' /\ valid h' s /\ extends h h'
    /\ (forall i, in_box i sh -> exists x y, nested_at v i = Some x /\ get_elem h' s i = Ok y
                                 /\ taken eqv c VNone u' x y)
    /\ (sparse_class c -> positive sh -> exists L, elements h' s = Ok (map (fun e => (KTup (fst e), snd e)) L)
          /\ StronglySorted row_major_lt (map fst L)
          /\ (forall i y, In (i, y) L <-> in_box i sh /\ exists x, nested_at v i = Some x /\ is_stored eqv VNone u' x y)).
Proof.
  intros eqv c h v sh u Heq Hreg Hc u' Hsp.
  assert (Hsrc : source_repr h (SrcSeq v) (nested_elem v)).
  { exists sh. split; [exact Hreg|reflexivity]. }
  pose proof (source_reads h (SrcSeq v) (nested_elem v) u Hsrc) as Hreads.
  cbn [get_shape] in Hreads. rewrite (regular_shape sh v Hreg) in Hreads.
  set (f := fo_value_eq eqv (SrcSeq v) (fo_unspecified u) (nested_elem v)).
  assert (Hspec : c = CCSR -> some_specified_eq eqv sh u' f).
  { intros Ec. destruct (Hsp Ec) as (i & x & Hi & Hx & H1 & H2). exists i. split; [exact Hi|].
    unfold f, fo_value_eq, nested_elem. rewrite Hx. unfold conv_eq. cbn [get_unspecified]. now rewrite H1. }
  assert (G : exists s h', fromobject_eq eqv c h (SrcSeq v) (fo_unspecified u) = Ok (s, h')
    /\ is_class c s /\ shape_of s = sh /\ unspecified_of s = u' /\ extends h h'
    /\ repr h' s (fun i => read_eq eqv c u' (f i))
    /\ (is_sparse s -> entries h' s (entries_of_eq eqv sh u' f))).
  { assert (D : c = CDM \/ c <> CDM) by (destruct c; (left; reflexivity) || (right; discriminate)).
    destruct D as [->|D].
    - destruct Hc as [Hne Hp]. assert (Hn : 0 < zlen sh) by (destruct sh; [congruence|unfold zlen; cbn; lia]).
      destruct (dm_fromobject_ok_eq eqv Heq CStrided h (SrcSeq v) (fo_unspecified u) None None sh (nested_elem v) Hreads Hp
                  (dm_args_default _ Hn)) as (d & h' & E1 & E2 & E3 & E4 & E5 & E6 & E7); [exact I|].
      eexists _, h'. split; [exact E1|]. split; [exact I|]. split; [reflexivity|]. split; [exact E3|]. split; [exact E4|].
      split; [exact E6|intros []].
    - assert (Hck : class_ok_eq eqv c sh u' f).
      { destruct c; cbn [class_rank class_ok_eq] in *; auto; congruence. }
      destruct (build_class_eq eqv Heq c h (SrcSeq v) (fo_unspecified u) sh (nested_elem v) I Hreads Hck)
        as (s & h' & E1 & E2 & E3 & E4 & E5 & E6 & E7 & E8).
      exists s, h'. split; [destruct c; try exact E1; congruence|]. auto 10. }
  destruct G as (s & h' & E1 & E2 & E3 & E4 & E5 & E6 & E7). exists s, h'.
  split; [exact E1|]. split; [exact E2|]. split; [exact E3|]. split; [exact E4|].
  split; [eexists; exact E6|]. split; [exact E5|]. split.
  - intros i Hi. exists (nested_elem v i). eexists. split; [now apply (regular_get sh)|].
    split; [apply (repr_get h' s _ i E6); now rewrite E3|]. apply taken_read.
  - intros Hs Hp. assert (Hs' : is_sparse s) by (destruct Hs as [->|[->| ->]], s; try contradiction; exact I).
    specialize (E7 Hs'). eexists. split; [apply elements_sparse; [exact E7|now rewrite E3]|].
    split; [apply (entries_ordered _ _ _ E7)|]. intros i y. rewrite entries_of_eq_In. split.
    + intros (Hi & -> & H). split; [exact Hi|]. exists (nested_elem v i). split; [now apply (regular_get sh)|].
      apply is_stored_iff. auto.
    + intros (Hi & x & Hx & H). apply is_stored_iff in H. destruct H as [-> H].
      assert (Ef : f i = conv_eq eqv VNone u' x) by (unfold f, fo_value_eq, nested_elem; now rewrite Hx).
      rewrite Ef. auto.
Qed.
Print Assumptions C89_fromobject.

(** With an unspecified value that nothing equals, such as NaN, a sparse array
    stores every element. *)
Theorem C89_nan_unspecified_stores_everything : forall eqv c h v sh u,
  no_int_is_None eqv -> sparse_class c -> regular sh v -> class_rank c sh -> positive sh ->
  (forall x, eqv x u = false) -> (exists i x, in_box i sh /\ nested_at v i = Some x /\ eqv x VNone = false) ->
  exists s h' L, fromobject_eq eqv c h (SrcSeq v) (fo_unspecified (Some u)) = Ok (s, h')
    /\ elements h' s = Ok (map (fun e => (KTup (fst e), snd e)) L)
    /\ StronglySorted row_major_lt (map fst L)
    /\ forall i, In i (map fst L) <-> in_box i sh.
Proof.
  intros eqv c h v sh u Heq Hs Hreg Hc Hp Hu (i0 & x0 & Hi0 & Hx0 & N0).
  destruct (C89_fromobject eqv c h v sh (Some u) Heq Hreg Hc) as (s & h' & E1 & _ & _ & _ & _ & _ & _ & E2).
  { intros _. exists i0, x0. cbn [chosen]. auto. }
  destruct (E2 Hs Hp) as (L & E3 & E4 & E5). exists s, h', L. split; [exact E1|]. split; [exact E3|]. split; [exact E4|].
  intros i. rewrite in_map_iff. split.
  - intros ([j y] & <- & Hin). apply E5 in Hin. apply Hin.
  - intros Hi. assert (Hn : nested_at v i = Some (nested_elem v i)) by now apply (regular_get sh).
    destruct (eqv (nested_elem v i) VNone) eqn:Ev.
    + exists (i, u). split; [reflexivity|]. apply E5. split; [exact Hi|]. eexists. split; [exact Hn|]. left. cbn [chosen]. auto.
    + exists (i, nested_elem v i). split; [reflexivity|]. apply E5. split; [exact Hi|]. eexists. split; [exact Hn|].
      right. cbn [chosen]. auto.
Qed.
Print Assumptions C89_nan_unspecified_stores_everything.

(** ** Conversions *)

(** As [taken], for conversions that copy stored values without looking at them:
    an element equal to one of the two unspecified values may also stay. *)
Definition kept_or_replaced (eqv : pyval -> pyval -> bool) (c : cls) (su u x y : pyval) : Prop :=
  (y = x \/ y = u)
  /\ (eqv x su = false -> (sparse_class c -> eqv x u = false) -> y = x).

Lemma taken_kept eqv c su u x y : taken eqv c su u x y -> kept_or_replaced eqv c su u x y.
Proof.
  intros (H1 & H2 & H3). split; [|exact H3]. destruct (eqv x su); [auto|].
  destruct c; try (left; apply H3; [reflexivity|]; intros [E|[E|E]]; discriminate);
    (destruct (eqv x u); [right; apply H2; unfold sparse_class; auto|left; apply H3; auto]).
Qed.

Lemma lookup_map_snd (P : pyval -> pyval -> Prop) c E su u i :
  (forall v, P v (c v)) -> P su u -> P (lookup E su i) (lookup (map_snd c E) u i).
Proof.
  intros Hc Hu. unfold lookup, map_snd. induction E as [|e E IH]; cbn [map find]; [exact Hu|]. cbn [fst].
  destruct (lex_eqb (fst e) i); [apply Hc|exact IH].
Qed.

Lemma kept_copied eqv c su v : kept_or_replaced eqv c su su v (copied eqv su su v).
Proof.
  unfold kept_or_replaced, copied, conv_eq. destruct (eqv su su); [auto|]. destruct (eqv v su); split; auto. discriminate.
Qed.

Lemma kept_copied2 eqv c su v : kept_or_replaced eqv c su su v (copied eqv su su (copied eqv su su v)).
Proof.
  destruct (kept_copied eqv c su v) as [[->|E] H].
  - apply kept_copied.
  - rewrite E. replace (copied eqv su su su) with su by (unfold copied, conv_eq; now destruct (eqv su su)).
    split; [auto|]. intros H1 H2. rewrite <- E. now apply H.
Qed.

Definition stays_eq (eqv : pyval -> pyval -> bool) (h : heap) (s : storage) (u : pyval) : Prop :=
  exists i x, in_box i (shape_of s) /\ get_elem h s i = Ok x /\ x <> unspecified_of s
    /\ eqv x (unspecified_of s) = false /\ eqv x u = false.

Lemma flat_conversion_eq eqv c h s f u :
  no_int_is_None eqv -> repr h s f -> positive (shape_of s) -> shape_of s <> [] ->
  c <> CDM -> class_rank c (shape_of s) ->
  let u' := chosen (unspecified_of s) u in
  (c = CCSR -> stays_eq eqv h s u') ->
  exists t h' f', flat_fromobject_eq eqv c h (SrcSto s) (fo_unspecified u) = Ok (t, h')
    /\ is_class c t /\ shape_of t = shape_of s /\ unspecified_of t = u' /\ extends h h' /\ repr h' t f'
    /\ (forall i, in_box i (shape_of s) -> kept_or_replaced eqv c (unspecified_of s) u' (f i) (f' i)
                                       /\ (u <> None -> taken eqv c (unspecified_of s) u' (f i) (f' i))).
Proof.
  intros Heq Hr Hp Hne Hd Hc u' Hst.
  assert (D : {no_shortcut c (SrcSto s) (fo_unspecified u)} + {~ no_shortcut c (SrcSto s) (fo_unspecified u)}).
  { unfold no_shortcut. destruct s, (is_default (fo_unspecified u)), c; auto; left; exact I. }
  destruct D as [Hns|Hns].
  - destruct (build_class_eq eqv Heq c h (SrcSto s) (fo_unspecified u) (shape_of s) f Hns)
      as (t & h' & E1 & E2 & E3 & E4 & E5 & E6 & E7 & E8).
    { apply source_reads. split; assumption. }
    { destruct c; cbn [class_rank class_ok_eq] in *; auto; try congruence. split; [exact Hc|].
      destruct (Hst eq_refl) as (i & x & Hi & Hx & _ & H1 & H2). exists i. split; [exact Hi|].
      rewrite (repr_get h s f i Hr Hi) in Hx. injection Hx as <-. unfold fo_value_eq, conv_eq.
      cbn [get_unspecified]. rewrite H1. exact H2. }
    exists t, h'. eexists. split; [exact E1|]. split; [exact E2|]. split; [exact E3|]. split; [exact E4|].
    split; [exact E5|]. split; [exact E7|]. intros i Hi.
    assert (T : taken eqv c (unspecified_of s) u' (f i)
      (read_eq eqv c u' (fo_value_eq eqv (SrcSto s) (fo_unspecified u) f i))) by apply taken_read.
    split; [now apply taken_kept|intros _; exact T].
  - assert (Hu : u = None).
    { destruct u; [|reflexivity]. exfalso. apply Hns. exact I. }
    subst u. cbn [chosen] in u'. unfold u' in *. clear u'.
    assert (N : forall P : Prop, (@None pyval <> None -> P)) by (intros P Hx; congruence).
    assert (Same : forall i, in_box i (shape_of s) -> kept_or_replaced eqv c (unspecified_of s) (unspecified_of s) (f i) (f i)
                   /\ (@None pyval <> None -> taken eqv c (unspecified_of s) (unspecified_of s) (f i) (f i)))
      by (intros i _; split; [split; auto|apply N]).
    assert (NE : forall E, (forall i, in_box i (shape_of s) -> f i = lookup E (unspecified_of s) i) -> c = CCSR -> E <> []).
    { intros E Hf Ec ->. destruct (Hst Ec) as (i & x & Hi & Hx & N1 & _). rewrite (repr_get h s f i Hr Hi), (Hf i Hi) in Hx.
      injection Hx as <-. apply N1. reflexivity. }
    unfold fo_unspecified, no_shortcut, is_default in Hns.
    destruct c, s; try (exfalso; apply Hns; exact I); try congruence;
      cbn [flat_fromobject_eq]; unfold fo_unspecified;
      unfold buffer_fromobject_eq, strided_fromobject_eq, coo_fromobject_eq, flatcoo_fromobject_eq, csr_fromobject_eq, coo_fromobject_eq;
      cbn [is_default bind].
    + eexists _, h, f. split; [reflexivity|]. repeat (split; [first [exact I|reflexivity|apply extends_refl|exact Hr]|]). exact Same.
    + eexists _, h, f. split; [reflexivity|]. repeat (split; [first [exact I|reflexivity|apply extends_refl|exact Hr]|]). exact Same.
    + eexists _, h, f. split; [reflexivity|]. repeat (split; [first [exact I|reflexivity|apply extends_refl|exact Hr]|]). exact Same.
    + destruct Hr as (E & HE & Hf). cbn [shape_of unspecified_of] in *.
      destruct (coo_of_flatcoo_ok_eq eqv Heq h shape findices data E HE Hp) as (ind & d' & h' & E1 & E2 & E3 & E4 & E5).
      rewrite E1. eexists _, _, _. split; [reflexivity|]. split; [exact I|]. split; [reflexivity|].
      split; [exact E4|]. split; [exact E2|]. split; [exact (repr_entries _ _ _ E3)|].
      intros i Hi. split; [|apply N]. cbn [unspecified_of]. rewrite E4, (Hf i Hi).
      apply (lookup_map_snd (kept_or_replaced eqv CCOO (bunspec data) (bunspec data))); [intros; apply kept_copied|split; auto].
    + destruct Hr as (E & HE & Hf). cbn [shape_of unspecified_of] in *.
      destruct (flatcoo_of_coo_ok_eq eqv h shape indices data E HE) as (ind & d' & h' & E1 & E2 & E3 & E4 & E5).
      rewrite E1. eexists _, _, _. split; [reflexivity|]. split; [exact I|]. split; [reflexivity|].
      split; [exact E4|]. split; [exact E2|]. split; [exact (repr_entries _ _ _ E3)|].
      intros i Hi. split; [|apply N]. cbn [unspecified_of]. rewrite E4, (Hf i Hi).
      apply (lookup_map_snd (kept_or_replaced eqv CFlatCOO (bunspec data) (bunspec data))); [intros; apply kept_copied|split; auto].
    + eexists _, h, f. split; [reflexivity|]. repeat (split; [first [exact I|reflexivity|apply extends_refl|exact Hr]|]). exact Same.
    + destruct Hr as (E & HE & Hf). cbn [shape_of unspecified_of class_rank] in *.
      destruct shape as [|n [|m [|? ?]]]; cbn in Hc; try lia.
      destruct (csr_of_coo_ok_eq eqv Heq h n m _ _ _ HE (NE E Hf eq_refl)) as (cb & cl & d' & h' & F1 & F2 & F3 & F4 & F5).
      rewrite F1. eexists _, _, _. split; [reflexivity|]. split; [exact I|]. split; [reflexivity|].
      split; [exact F4|]. split; [exact F2|]. split; [exact (repr_entries _ _ _ F3)|].
      intros i Hi. split; [|apply N]. cbn [unspecified_of]. rewrite F4, (Hf i Hi).
      apply (lookup_map_snd (kept_or_replaced eqv CCSR (bunspec data) (bunspec data))); [intros; apply kept_copied|split; auto].
    + destruct Hr as (E & HE & Hf). cbn [shape_of unspecified_of class_rank] in *.
      destruct (coo_of_flatcoo_ok_eq eqv Heq h shape findices data E HE Hp) as (ind & d1 & h1 & E1 & E2 & E3 & E4 & E5).
      rewrite E1. cbn [bind].
      destruct shape as [|n [|m [|? ?]]]; cbn in Hc; try lia.
      assert (HneE : map_snd (copied eqv (bunspec data) (bunspec data)) E <> []).
      { pose proof (NE E Hf eq_refl). destruct E; [congruence|discriminate]. }
      destruct (csr_of_coo_ok_eq eqv Heq h1 n m _ _ _ E3 HneE) as (cb & cl & d' & h' & F1 & F2 & F3 & F4 & F5).
      rewrite F1. eexists _, _, _. split; [reflexivity|]. split; [exact I|]. split; [reflexivity|].
      split; [cbn [unspecified_of]; congruence|]. split; [eapply extends_trans; eassumption|].
      split; [exact (repr_entries _ _ _ F3)|].
      intros i Hi. split; [|apply N]. cbn [unspecified_of]. rewrite F4, E4, (Hf i Hi).
      replace (map_snd (copied eqv (bunspec data) (bunspec data)) (map_snd (copied eqv (bunspec data) (bunspec data)) E))
        with (map_snd (fun v => copied eqv (bunspec data) (bunspec data) (copied eqv (bunspec data) (bunspec data) v)) E)
        by (unfold map_snd; rewrite map_map; reflexivity).
      apply (lookup_map_snd (kept_or_replaced eqv CCSR (bunspec data) (bunspec data))); [intros; apply kept_copied2|split; auto].
Qed.

Lemma dm_class_ok_intro_eq eqv c sh dimensions partitioning u f :
  positive sh -> dm_args (dm_is_buffer c) (zlen sh) dimensions partitioning ->
  dm_rank_ok c (n_groups c (zlen sh) partitioning) ->
  (c = CCSR -> some_specified_eq eqv sh u f) ->
  let rdims := dm_rdims (dm_is_buffer c) (zlen sh) dimensions partitioning in
  dm_class_ok_eq eqv c (group_shape sh rdims) u (fun r => f (promoted sh rdims r)).
Proof.
  intros Hp Ha Hc Hs rdims.
  pose proof (dm_class_ok_intro (match c with CCSR => CCOO | c => c end) sh dimensions partitioning VNone (fun _ => VNone) Hp) as G.
  pose proof (rdims_length c (zlen sh) dimensions partitioning) as Hl. fold rdims in Hl.
  destruct c; cbn [dm_class_ok_eq class_ok_eq dm_class_ok class_ok dm_rank_ok] in *; try contradiction; auto;
    try (apply G; auto; discriminate).
  rewrite <- Hl in Hc. unfold zlen in Hc. unfold group_shape at 1. rewrite map_length. split; [lia|].
  destruct (Hs eq_refl) as (i & Hi & Hv). exists (group_index sh rdims i).
  assert (Ec : concat rdims = dm_dims (zlen sh) dimensions).
  { apply concat_cut_partition.
    - unfold zlen at 1. rewrite (Permutation_length (da_dims _ _ _ _ Ha)), zseq_length_nat. unfold zlen. lia.
    - split; [apply (da_sorted _ _ _ _ Ha)|]. eapply Forall_impl; [|apply (da_range _ _ _ _ Ha)]. cbn. intros; lia. }
  assert (Hperm : Permutation (concat rdims) (zseq (zlen sh))) by (rewrite Ec; apply (da_dims _ _ _ _ Ha)).
  split.
  - apply group_index_in_box, in_box_groups. apply (in_box_gather (zlen sh)); auto. now apply in_box_zlen.
  - unfold promoted. rewrite promote_reduce by assumption. exact Hv.
Qed.

(** as_DM with any mapping of the axes and any class of the reduced array. *)
Theorem C89_as_DM : forall eqv h s dimensions partitioning c u,
  no_int_is_None eqv -> valid h s -> positive (shape_of s) ->
  mapping_ok (zlen (shape_of s)) dimensions partitioning ->
  dm_rank_ok c (n_groups c (zlen (shape_of s)) partitioning) ->
  let u' := chosen (unspecified_of s) u in
  (c = CCSR -> stays_eq eqv h s u') ->
  exists t h', dm_fromobject_eq eqv h (SrcSto s) (FO (Some (shape_of s)) None u) dimensions partitioning c = Ok (t, h')
    /\ is_class CDM t /\ shape_of t = shape_of s /\ unspecified_of t = u' /\ valid h' t /\ extends h h'
    /\ forall i, in_box i (shape_of s) -> exists x y, get_elem h s i = Ok x /\ get_elem h' t i = Ok y
         /\ taken eqv c (unspecified_of s) u' x y.
Proof.
  intros eqv h s dimensions partitioning c u Heq [f Hr] Hp [Hn Hd Hpart] Hc u' Hst.
  assert (Hne : shape_of s <> []) by (intros E; rewrite E in Hn; discriminate).
  pose proof (dm_args_strict (dm_is_buffer c) _ _ _ Hn Hd Hpart) as Ha.
  pose proof (storage_reads h s f (Some (shape_of s)) u Hr Hne eq_refl) as Hreads.
  destruct (dm_fromobject_ok_eq eqv Heq c h (SrcSto s) (FO (Some (shape_of s)) None u) dimensions partitioning _ f Hreads Hp Ha)
    as (d & h' & E1 & E2 & E3 & E4 & E5 & E6 & E7).
  { apply (dm_class_ok_intro_eq eqv c (shape_of s) dimensions partitioning u'
             (fo_value_eq eqv (SrcSto s) (FO (Some (shape_of s)) None u) f)); auto.
    intros Ec. destruct (Hst Ec) as (i & x & Hi & Hx & _ & H1 & H2). exists i. split; [exact Hi|].
    rewrite (repr_get h s f i Hr Hi) in Hx. injection Hx as <-. unfold fo_value_eq, conv_eq. cbn [get_unspecified].
    rewrite H1. exact H2. }
  eexists _, h'. split; [exact E1|]. split; [exact I|]. split; [reflexivity|]. split; [exact E3|]. split; [eexists; exact E6|].
  split; [exact E4|]. intros i Hi. eexists _, _. split; [exact (repr_get h s f i Hr Hi)|].
  split; [exact (repr_get h' _ _ i E6 Hi)|]. unfold fo_read. apply taken_read.
Qed.
Print Assumptions C89_as_DM.

(** as_X, with the unspecified argument ([taken]) and without ([kept_or_replaced]). *)
Theorem C89_conversion : forall eqv c h s u,
  no_int_is_None eqv -> valid h s -> positive (shape_of s) -> shape_of s <> [] -> class_rank c (shape_of s) ->
  let u' := chosen (unspecified_of s) u in
  (c = CCSR -> stays_eq eqv h s u') ->
  exists t h', as_storage_eq eqv c h s u = Ok (t, h')
    /\ is_class c t /\ shape_of t = shape_of s /\ unspecified_of t = u' /\ valid h' t /\ extends h h'
    /\ forall i, in_box i (shape_of s) -> exists x y, get_elem h s i = Ok x /\ get_elem h' t i = Ok y
         /\ kept_or_replaced eqv c (unspecified_of s) u' x y
         /\ (u <> None -> taken eqv c (unspecified_of s) u' x y).
Proof.
  intros eqv c h s u Heq Hv Hp Hne Hc u' Hst.
  assert (D : c = CDM \/ c <> CDM) by (destruct c; (left; reflexivity) || (right; discriminate)).
  destruct D as [->|D].
  - destruct (C89_as_DM eqv h s None None CStrided u Heq Hv Hp) as (t & h' & E1 & E2 & E3 & E4 & E5 & E6 & E7);
      [constructor; try discriminate; destruct (shape_of s); [congruence|unfold zlen; cbn; lia]|exact I|discriminate|].
    exists t, h'. split; [exact E1|]. split; [exact E2|]. split; [exact E3|]. split; [exact E4|]. split; [exact E5|].
    split; [exact E6|]. intros i Hi. destruct (E7 i Hi) as (x & y & Hx & Hy & T). exists x, y.
    assert (T' : taken eqv CDM (unspecified_of s) u' x y).
    { destruct T as (T1 & T2 & T3). split; [exact T1|]. split; [intros _ [X|[X|X]]; discriminate|].
      intros H _. apply T3; [exact H|]. intros [X|[X|X]]; discriminate. }
    split; [exact Hx|]. split; [exact Hy|]. split; [now apply taken_kept|auto].
  - destruct Hv as [f Hr].
    destruct (flat_conversion_eq eqv c h s f u Heq Hr Hp Hne D Hc Hst) as (t & h' & f' & E1 & E2 & E3 & E4 & E5 & E6 & E7).
    exists t, h'. split; [destruct c; try exact E1; congruence|]. split; [exact E2|]. split; [exact E3|]. split; [exact E4|].
    split; [eexists; exact E6|]. split; [exact E5|]. intros i Hi. exists (f i), (f' i).
    split; [now apply repr_get|]. split; [apply (repr_get h' t f' i E6); now rewrite E3|]. now apply E7.
Qed.
Print Assumptions C89_conversion.

(** ** copy *)
Definition copied_as (eqv : pyval -> pyval -> bool) (su u x y : pyval) : Prop :=
  (x <> su -> eqv x su = false -> y = x)
  /\ (eqv x su = true -> eqv u su = false -> y = u)
  /\ (y = x \/ y = u).

Lemma copied_as_copied eqv su u v : copied_as eqv su u v (copied eqv su u v).
Proof.
  unfold copied_as, copied, conv_eq. destruct (eqv u su), (eqv v su); repeat split; auto; discriminate.
Qed.

Lemma copied_as_conv eqv su u v : copied_as eqv su u v (conv_eq eqv su u v).
Proof.
  unfold copied_as, conv_eq. destruct (eqv v su); repeat split; auto; discriminate.
Qed.

Lemma copied_as_missing eqv su u : copied_as eqv su u su u.
Proof. repeat split; auto. congruence. Qed.

Lemma copy_ok_eq eqv : forall s h f u, repr h s f ->
  let u' := chosen (unspecified_of s) u in
  exists s' h' f', copy_eq eqv h s u = Ok (s', h')
    /\ shape_of s' = shape_of s /\ unspecified_of s' = u'
    /\ extends h h' /\ repr h' s' f' /\ (forall c, is_class c s -> is_class c s')
    /\ forall i, in_box i (shape_of s) -> copied_as eqv (unspecified_of s) u' (f i) (f' i).
Proof.
  induction s as [b|t|sh ind d|sh fi d|sh cr co d|sh ch a b c d|sh rd rsh rs ro d IH];
    intros h f u Hr u'; cbn [copy_eq].
  - destruct Hr as (vs & Hh & Hf). rewrite (buf_copy_ok_eq eqv h b vs u Hh). cbn [bind].
    change (new_unspec (bunspec b) u) with u'. set (vs' := map (copied eqv (bunspec b) u') vs).
    assert (Hs : bsize b = zlen vs) by (destruct Hh as (l & _ & _ & Hs & _); exact Hs).
    eexists _, _, (fun i => match i with [x] => copied eqv (bunspec b) u' (f [x]) | _ => VNone end).
    split; [reflexivity|]. cbn [shape_of unspecified_of bsize bunspec].
    split; [now rewrite Hs|]. split; [reflexivity|]. split; [apply extends_alloc|]. split; [|split; [intros []; auto|]].
    + cbn [repr]. exists vs'. split; [apply holds_new_map|]. intros x Hx. unfold vs' in *.
      rewrite zlen_map in Hx. rewrite Hf by exact Hx.
      transitivity (nth (Z.to_nat x) (map (copied eqv (bunspec b) u') vs) (copied eqv (bunspec b) u' VNone)).
      * now rewrite map_nth.
      * apply nth_indep. rewrite map_length. unfold zlen in Hx. lia.
    + intros i Hi. inversion Hi as [|x ? i' ? Hx Hi']; subst. inversion Hi'; subst. apply copied_as_copied.
  - pose proof (strided_copy_ok_eq eqv h t f u Hr) as E. cbv zeta in E. rewrite E. cbn [bind].
    change (new_unspec (bunspec (sdata t)) u) with u'.
    eexists _, _, (fun i => conv_eq eqv (bunspec (sdata t)) u' (f i)). split; [reflexivity|].
    cbn [shape_of unspecified_of sshape sdata bunspec].
    split; [reflexivity|]. split; [reflexivity|]. split; [apply extends_alloc|]. split; [|split; [intros []; auto|]].
    + pose proof (repr_nonneg h _ f Hr) as Hnn. cbn [shape_of] in Hnn.
      assert (Hget : forall i, in_box i (sshape t) -> (fun i => Ok (f i)) i = Ok (f i)) by reflexivity.
      destruct (strided_build_ok_eq eqv (fun i => Ok (f i)) f (sshape t) (bunspec (sdata t)) u' h Hnn Hget)
        as (_ & B2 & B3).
      rewrite zlen_map in B2, B3. unfold zlen in B2, B3. rewrite (cart_length _ Hnn) in B2, B3.
      cbn [repr sdata baddr sshape]. eexists. split; [apply nth_error_new|]. split; [exact B2|].
      intros i Hi. now rewrite B3.
    + intros i Hi. apply copied_as_conv.
  - destruct Hr as (E & HE & Hf). pose proof HE as (H1 & H2 & H3 & H4 & H5 & H6 & H7 & H8).
    rewrite (buf_copy_ok_eq eqv h d _ u H4). cbn [bind]. change (new_unspec (bunspec d) u) with u'.
    unfold mk_coo. rewrite H5. change (pyget [zlen sh; zlen E] 1) with (@Ok Z (zlen E)). cbn [bind].
    cbn [bsize]. unfold assert_. rewrite zlen_map, Z.eqb_refl. cbn [bind].
    eexists _, _, (lookup (map_snd (copied eqv (bunspec d) u') E) u'). split; [reflexivity|]. split; [reflexivity|]. split; [reflexivity|].
    split; [apply extends_alloc|]. split; [|split; [intros []; auto|]].
    { cbn [repr]. eexists. split; [|intros i _; reflexivity].
      cbn [entries]. split; [exact H1|]. split; [exact H2|]. split; [now apply map_snd_ordered|].
      split.
      { rewrite map_snd_snd. rewrite <- (zlen_map snd E). apply holds_new_map. }
      rewrite map_snd_zlen. split; [exact H5|]. split; [exact H6|]. split.
      { rewrite (map_ext (fun k => column k (map_snd (copied eqv (bunspec d) u') E)) (fun k => column k E))
          by (intros; apply map_snd_column). eapply holds_extends; [apply extends_alloc|exact H7]. }
      cbn [baddr]. pose proof (holds_lt _ _ _ H7). split; [lia|apply H8]. }
    cbn [shape_of unspecified_of] in *. intros i Hi. rewrite Hf by exact Hi.
    apply lookup_map_snd; [apply copied_as_copied|apply copied_as_missing].
  - destruct Hr as (E & HE & Hf). pose proof HE as (H1 & H2 & H3 & H4 & H5 & H6).
    rewrite (buf_copy_ok_eq eqv h d _ u H4). cbn [bind]. change (new_unspec (bunspec d) u) with u'.
    assert (Hz : bsize fi = zlen (map snd E)).
    { destruct H5 as (l & _ & _ & Hs & _). rewrite Hs, !zlen_map. reflexivity. }
    unfold mk_flatcoo. cbn [bsize]. unfold assert_. rewrite Hz, Z.eqb_refl. cbn [bind].
    eexists _, _, (lookup (map_snd (copied eqv (bunspec d) u') E) u'). split; [reflexivity|]. split; [reflexivity|]. split; [reflexivity|].
    split; [apply extends_alloc|]. split; [|split; [intros []; auto|]].
    { cbn [repr]. eexists. split; [|intros i _; reflexivity].
      cbn [entries]. split; [exact H1|]. split; [exact H2|]. split; [now apply map_snd_ordered|].
      split.
      { rewrite map_snd_snd. apply holds_new_map. }
      split.
      { eapply holds_extends; [apply extends_alloc|]. unfold map_snd. rewrite map_map. exact H5. }
      cbn [baddr]. pose proof (holds_lt _ _ _ H5). split; [lia|apply H6]. }
    cbn [shape_of unspecified_of] in *. intros i Hi. rewrite Hf by exact Hi.
    apply lookup_map_snd; [apply copied_as_copied|apply copied_as_missing].
  - destruct Hr as (E & HE & Hf). pose proof HE as (H1 & H2 & H3 & H4 & H5 & H6 & H7 & H8).
    rewrite (buf_copy_ok_eq eqv h d _ u H4). cbn [bind]. change (new_unspec (bunspec d) u) with u'.
    destruct sh as [|n [|m [|? ?]]]; try (cbn in H2; lia).
    assert (Hn : 0 <= n) by now inversion H1.
    assert (Hz : bsize co = zlen (map snd E)).
    { destruct H6 as (l & _ & _ & Hs & _). rewrite Hs. unfold column. rewrite !zlen_map. reflexivity. }
    assert (Hz2 : bsize cr = n + 1).
    { destruct H5 as (l & _ & _ & Hs & _). rewrite Hs, zlen_map, zseq_length. cbn [nth]. lia. }
    unfold mk_csr. cbn [bsize]. unfold assert_. change (zlen [n; m] =? 2) with true. cbn [bind].
    change (pyget [n; m] 0) with (@Ok Z n). cbn [bind]. rewrite Hz2, Z.eqb_refl. cbn [bind].
    rewrite Hz, Z.eqb_refl. cbn [bind].
    eexists _, _, (lookup (map_snd (copied eqv (bunspec d) u') E) u'). split; [reflexivity|]. split; [reflexivity|]. split; [reflexivity|].
    split; [apply extends_alloc|]. split; [|split; [intros []; auto|]].
    { cbn [repr]. eexists. split; [|intros i _; reflexivity].
      cbn [entries]. split; [exact H1|]. split; [exact H2|]. split; [now apply map_snd_ordered|].
      split.
      { rewrite map_snd_snd. apply holds_new_map. }
      rewrite !map_snd_column. split; [eapply holds_extends; [apply extends_alloc|exact H5]|].
      split; [eapply holds_extends; [apply extends_alloc|exact H6]|].
      cbn [baddr]. pose proof (holds_lt _ _ _ H5). pose proof (holds_lt _ _ _ H6). split; [lia|]. split; [lia|apply H8]. }
    cbn [shape_of unspecified_of] in *. intros i Hi. rewrite Hf by exact Hi.
    apply lookup_map_snd; [apply copied_as_copied|apply copied_as_missing].
  - destruct Hr as (E & [] & _).
  - destruct Hr as (g & Hg & Hd & Hf).
    destruct (IH h g u Hg) as (d' & h' & g' & E1 & E2 & E3 & E4 & E5 & _ & E6).
    rewrite E1. cbn [bind]. rewrite mk_dm_ok.
    2:{ apply (dm_groups _ _ _ _ _ _ Hd). } 2:{ apply (dm_perm _ _ _ _ _ _ Hd). }
    cbn [bind]. rewrite <- (dm_rshapes _ _ _ _ _ _ Hd).
    eexists _, _, (fun i => g' (dm_index rd rs ro i)). split; [reflexivity|]. cbn [shape_of unspecified_of] in *. split; [reflexivity|].
    split; [exact E3|]. split; [exact E4|]. split; [|split; [intros []; auto|]].
    + cbn [repr]. eexists. split; [exact E5|]. rewrite E2. split; [exact Hd|]. reflexivity.
    + intros i Hi. rewrite Hf by exact Hi. apply E6. now apply (dm_box _ _ _ _ _ _ Hd).
Qed.

Theorem C89_copy : forall eqv h s u, valid h s ->
  let u' := chosen (unspecified_of s) u in
  exists t h', copy_eq eqv h s u = Ok (t, h')
    /\ (forall c, is_class c s -> is_class c t)
    /\ shape_of t = shape_of s /\ unspecified_of t = u' /\ valid h' t /\ extends h h'
    /\ forall i, in_box i (shape_of s) -> exists x y, get_elem h s i = Ok x /\ get_elem h' t i = Ok y
         /\ copied_as eqv (unspecified_of s) u' x y.
Proof.
  intros eqv h s u [f Hr] u'.
  destruct (copy_ok_eq eqv s h f u Hr) as (t & h' & f' & E1 & E2 & E3 & E4 & E5 & E6 & E7).
  exists t, h'. split; [exact E1|]. split; [exact E6|]. split; [exact E2|]. split; [exact E3|]. split; [eexists; exact E5|].
  split; [exact E4|]. intros i Hi. exists (f i), (f' i). split; [now apply repr_get|].
  split; [apply (repr_get h' t f' i E5); now rewrite E2|]. now apply E7.
Qed.
Print Assumptions C89_copy.

(** ** equal *)
Lemma dict_eq_iff eqv l m : NoDup (map fst l) -> NoDup (map fst m) ->
  dict_eq eqv l m = true
  <-> (forall k, (exists x, In (k, x) l) <-> (exists y, In (k, y) m))
      /\ forall k x y, In (k, x) l -> In (k, y) m -> eqv x y = true.
Proof.
  intros Hl Hm. unfold dict_eq. rewrite andb_true_iff, !forallb_forall. split.
  - intros [H1 H2]. split.
    + intros k. split; intros [x Hx].
      * specialize (H1 _ Hx). cbn [fst] in H1. destruct (dict_get l k); [|discriminate].
        destruct (dict_get m k) as [y|] eqn:E; [|discriminate]. exists y. now apply dict_get_key.
      * specialize (H2 _ Hx). cbn [fst] in H2. destruct (dict_get l k) as [y|] eqn:E; [|discriminate].
        exists y. now apply dict_get_key.
    + intros k x y Hx Hy. specialize (H1 _ Hx). cbn [fst] in H1.
      rewrite (proj2 (dict_get_iff l k x Hl) Hx), (proj2 (dict_get_iff m k y Hm) Hy) in H1. exact H1.
  - intros [H1 H2]. split; intros [k x] Hx; cbn [fst].
    + rewrite (proj2 (dict_get_iff l k x Hl) Hx). destruct (proj1 (H1 k) (ex_intro _ x Hx)) as [y Hy].
      rewrite (proj2 (dict_get_iff m k y Hm) Hy). eauto.
    + destruct (proj2 (H1 k) (ex_intro _ x Hx)) as [y Hy]. now rewrite (proj2 (dict_get_iff l k y Hl) Hy).
Qed.

(** equal() compares which elements are stored, and the stored elements with [==]. *)
Theorem C89_equal : forall eqv h s t,
  valid h s -> valid h t -> not_buffer s -> not_buffer t ->
  (is_sparse s -> positive (shape_of s)) -> (is_sparse t -> positive (shape_of t)) ->
  exists b, equal_eq eqv h s t = Ok b
    /\ (b = true <-> (forall i, stored h s i <-> stored h t i)
                     /\ forall i x y, stored h s i -> get_elem h s i = Ok x -> get_elem h t i = Ok y -> eqv x y = true).
Proof.
  intros eqv h s t [f Hs] [g Ht] Bs Bt Ps Pt.
  destruct (elements_stored h s f Hs Bs Ps) as (l & El & Hl).
  destruct (elements_stored h t g Ht Bt Pt) as (m & Em & Hm).
  destruct (elements_ok h s f Hs Ps) as (l' & El' & Nl). rewrite El in El'. injection El' as <-.
  destruct (elements_ok h t g Ht Pt) as (m' & Em' & Nm). rewrite Em in Em'. injection Em' as <-.
  unfold equal_eq. rewrite El, Em. cbn [bind]. eexists. split; [reflexivity|]. rewrite dict_eq_iff by assumption.
  assert (Kl : forall i, stored h s i -> exists x, In (KTup i, x) l).
  { intros i Hi. destruct (stored_get h s f i Hs Hi Ps Bs) as (x & Hx). exists x. apply Hl. eauto. }
  assert (Km : forall i, stored h t i -> exists x, In (KTup i, x) m).
  { intros i Hi. destruct (stored_get h t g i Ht Hi Pt Bt) as (x & Hx). exists x. apply Hm. eauto. }
  assert (Kl' : forall k x, In (k, x) l -> exists i, k = KTup i /\ stored h s i /\ get_elem h s i = Ok x).
  { intros k x Hin. apply Hl in Hin. destruct Hin as (i & y & E & H1 & H2). injection E as -> ->. eauto. }
  assert (Km' : forall k x, In (k, x) m -> exists i, k = KTup i /\ stored h t i /\ get_elem h t i = Ok x).
  { intros k x Hin. apply Hm in Hin. destruct Hin as (i & y & E & H1 & H2). injection E as -> ->. eauto. }
  split; intros [H1 H2]; split.
  - intros i. split; intros Hi.
    + destruct (Kl i Hi) as [x Hx]. destruct (proj1 (H1 _) (ex_intro _ x Hx)) as [y Hy].
      destruct (Km' _ _ Hy) as (j & E & Hj & _). injection E as <-. exact Hj.
    + destruct (Km i Hi) as [x Hx]. destruct (proj2 (H1 _) (ex_intro _ x Hx)) as [y Hy].
      destruct (Kl' _ _ Hy) as (j & E & Hj & _). injection E as <-. exact Hj.
  - intros i x y Hi Hx Hy. destruct (Kl i Hi) as [x' Hx']. destruct (Kl' _ _ Hx') as (j & E & _ & Hx2). injection E as <-.
    rewrite Hx in Hx2. injection Hx2 as <-. destruct (proj1 (H1 _) (ex_intro _ x Hx')) as [y' Hy'].
    destruct (Km' _ _ Hy') as (j & E & _ & Hy2). injection E as <-. rewrite Hy in Hy2. injection Hy2 as <-. eauto.
  - intros k. split; intros [x Hx].
    + destruct (Kl' _ _ Hx) as (i & -> & Hi & _). apply Km. now apply H1.
    + destruct (Km' _ _ Hx) as (i & -> & Hi & _). apply Kl. now apply H1.
  - intros k x y Hx Hy. destruct (Kl' _ _ Hx) as (i & -> & Hi & Gx). destruct (Km' _ _ Hy) as (j & E & _ & Gy).
    injection E as <-. eauto.
Qed.
Print Assumptions C89_equal.

(** ** Examples: 0.0, equal to 0 but different, and NaN, different from itself *)
Definition float0 : pyval := VAtom 0.
Definition nan : pyval := VAtom 1.
Definition py_eq (x y : pyval) : bool :=
  match x, y with
  | VAtom 1, _ | _, VAtom 1 => false
  | VAtom 0, VInt 0 | VInt 0, VAtom 0 => true
  | _, _ => veqb x y
  end.

Definition with_floats : pyval := VSeq [VSeq [VInt 1; float0]; VSeq [VNone; nan]].

(** FlatCOO.fromobject([[1, 0.0], [None, nan]], unspecified=0): the 0.0 is not
    stored and reads 0; Strided keeps it.  With unspecified=nan everything is
    stored. *)
Example C89_case : no_int_is_None py_eq
  /\ ('(s, h) <- fromobject_eq py_eq CFlatCOO [] (SrcSeq with_floats) (fo_unspecified (Some (VInt 0))) ;;
      '(t, h1) <- fromobject_eq py_eq CStrided h (SrcSeq with_floats) (fo_unspecified (Some (VInt 0))) ;;
      '(n, h2) <- fromobject_eq py_eq CFlatCOO h1 (SrcSeq with_floats) (fo_unspecified (Some nan)) ;;
      e <- elements h2 s ;; e1 <- elements h2 t ;; e2 <- elements h2 n ;; x <- get_elem h2 s [0; 1] ;; Ok (e, e1, e2, x))
     = Ok ([(KTup [0; 0], VInt 1); (KTup [1; 1], nan)],
           [(KTup [0; 0], VInt 1); (KTup [0; 1], float0); (KTup [1; 0], VInt 0); (KTup [1; 1], nan)],
           [(KTup [0; 0], VInt 1); (KTup [0; 1], float0); (KTup [1; 0], nan); (KTup [1; 1], nan)],
           VInt 0).
Proof. split; [intros [| |]; reflexivity|vm_compute; reflexivity]. Qed.

(** Storing 0.0 in a COO array with unspecified 0: as_FlatCOO() keeps it,
    as_FlatCOO(unspecified=0) does not, copy(unspecified=None) replaces it. *)
Example C89_conversion_case :
  ('(s, h) <- fromobject_eq py_eq CCOO [] (SrcSeq (VSeq [VSeq [VInt 1; VNone]; VSeq [VNone; VNone]])) (fo_unspecified (Some (VInt 0))) ;;
   let h := fst (setitem h s (XTuple [IInt 0; IInt 0]) (SrcSeq float0)) in
   '(t, h) <- as_storage_eq py_eq CFlatCOO h s None ;;
   '(w, h) <- as_storage_eq py_eq CFlatCOO h s (Some (VInt 0)) ;;
   '(c, h) <- copy_eq py_eq h s (Some VNone) ;;
   '(c', h) <- copy_eq py_eq h s (Some float0) ;;
   x <- get_elem h t [0; 0] ;; y <- get_elem h w [0; 0] ;; z <- get_elem h c [0; 0] ;; z' <- get_elem h c' [1; 0] ;;
   b <- equal_eq py_eq h s t ;; b' <- equal_eq py_eq h t w ;;
   Ok (x, y, z, z', b, b'))
  = Ok (float0, VInt 0, VNone, float0, true, false).
Proof. vm_compute. reflexivity. Qed.

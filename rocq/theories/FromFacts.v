(** fromobject and the as_X conversions. *)
From Coq Require Import Sorting.Sorted Permutation ZifyBool.
From Verif Require Import Py SliceTools Basics Storage Spec SliceFacts IndexFacts
  CompressFacts ReduceFacts SolverFacts SolveFacts Repr ReprFacts ViewFacts BuildFacts SparseFacts ConvFacts.

Definition is_class (c : cls) (s : storage) : Prop :=
  match c, s with
  | CBuffer, SBuffer _ | CStrided, SStrided _ | CCOO, SCOO _ _ _ | CFlatCOO, SFlatCOO _ _ _
  | CCSR, SCSR _ _ _ _ | CDM, SDM _ _ _ _ _ _ => True
  | _, _ => False
  end.

(** Some element differs from the unspecified value. *)
Definition some_specified (sh : list Z) (u : pyval) (f : list Z -> pyval) : Prop :=
  exists i, in_box i sh /\ f i <> u.

(** What a class can store. *)
Definition class_ok (c : cls) (sh : list Z) (u : pyval) (f : list Z -> pyval) : Prop :=
  match c with
  | CStrided => True
  | CBuffer => length sh = 1%nat
  | CCOO | CFlatCOO => sh <> []
  | CCSR => length sh = 2%nat /\ some_specified sh u f
  | CC2SR | CDM => False
  end.

(** The branches of fromobject returning or copying a storage of the same kind. *)
Definition no_shortcut (c : cls) (src : source) (a : fo_args) : Prop :=
  match src, is_default a with
  | SrcSto s, true =>
      match c, s with
      | CBuffer, SBuffer _ | CStrided, SStrided _ => False
      | (CCOO | CFlatCOO | CCSR), (SCOO _ _ _ | SFlatCOO _ _ _) => False
      | _, _ => True
      end
  | _, _ => True
  end.

Definition reads (h : heap) (src : source) (a : fo_args) (sh : list Z) (g : list Z -> pyval) : Prop :=
  fo_get_shape src a = sh /\ nonneg sh /\ forall i, in_box i sh -> fo_get h src a i = Ok (g i).

Definition fo_value (src : source) (a : fo_args) (g : list Z -> pyval) (i : list Z) : pyval :=
  conv_value (get_unspecified src) (fo_get_unspec src a) (g i).

Lemma entries_of_nonempty sh u f : some_specified sh u f -> entries_of sh u f <> [].
Proof.
  intros (i & Hi & Hv) E. assert (Hin : In (i, f i) (entries_of sh u f)).
  { unfold entries_of, specified. apply filter_In. split.
    - apply in_map_iff. exists i. split; [reflexivity|]. now apply In_cart.
    - cbn [snd]. destruct (veqb (f i) u) eqn:Ev; [|reflexivity]. apply veqb_eq in Ev. contradiction. }
  rewrite E in Hin. contradiction.
Qed.

Lemma repr_entries h s E : entries h s E -> repr h s (lookup E (unspecified_of s)).
Proof. intros H. pose proof (entries_sparse h s E H). destruct s; cbn in *; try tauto; eauto. Qed.

Lemma coo_fromobject_build h src a : no_shortcut CCOO src a ->
  coo_fromobject h src a = coo_build (fo_get h src a) (fo_get_shape src a)
                      (get_unspecified src) (fo_get_unspec src a) h.
Proof.
  unfold no_shortcut, coo_fromobject. destruct src as [v|[]]; try reflexivity;
    destruct (is_default a); try reflexivity; contradiction.
Qed.

Lemma build_class c h src a sh g : no_shortcut c src a -> reads h src a sh g ->
  class_ok c sh (fo_get_unspec src a) (fo_value src a g) ->
  exists s h', flat_fromobject c h src a = Ok (s, h') /\ is_class c s
    /\ shape_of s = sh /\ unspecified_of s = fo_get_unspec src a
    /\ extends h h' /\ fresh h s
    /\ repr h' s (fo_value src a g)
    /\ (is_sparse s -> entries h' s (entries_of sh (fo_get_unspec src a) (fo_value src a g))).
Proof.
  intros Hns (Hsh & Hn & Hg) Hc. set (su := get_unspecified src) in *. set (u := fo_get_unspec src a) in *.
  destruct c; cbn [class_ok] in Hc; try contradiction; cbn [flat_fromobject].
  - (* Buffer *)
    assert (Eb : buffer_fromobject h src a = buffer_build (fo_get h src a) (fo_get_shape src a) su u h).
    { unfold no_shortcut in Hns. unfold buffer_fromobject. destruct src as [v|[]]; try reflexivity;
        destruct (is_default a); try reflexivity; contradiction. }
    rewrite Eb, Hsh. rewrite (buffer_build_ok _ g) by assumption. cbn [bind].
    set (vs := map (fun i => conv_value su u (g i)) (cart sh)).
    eexists _, _. split; [reflexivity|]. split; [exact I|]. cbn [shape_of unspecified_of bsize bunspec].
    destruct sh as [|n [|? ?]]; cbn in Hc; try lia.
    assert (Hz : zlen vs = n).
    { unfold vs. rewrite zlen_map, cart_1, zlen_map, zseq_length. inversion Hn; lia. }
    rewrite Hz. split; [reflexivity|]. split; [reflexivity|]. split; [apply extends_alloc|].
    split; [intros x [<-|[]]; cbn; lia|]. split; [|intros []].
    cbn [repr]. exists vs. split; [rewrite <- Hz; apply holds_new|].
    intros x Hx. unfold vs. rewrite Hz in Hx. rewrite cart_1, map_map.
    rewrite nth_indep with (d' := conv_value su u (g [0])) by (rewrite map_length, zseq_length_nat; lia).
    rewrite (map_nth (fun x => conv_value su u (g [x]))). rewrite nth_zseq by lia. reflexivity.
  - (* Strided *)
    assert (Eb : strided_fromobject h src a = strided_build (fo_get h src a) (fo_get_shape src a) su u h).
    { unfold no_shortcut in Hns. unfold strided_fromobject. destruct src as [v|[]]; try reflexivity;
        destruct (is_default a); try reflexivity; contradiction. }
    rewrite Eb, Hsh.
    destruct (repr_strided_build (fo_get h src a) g sh su u h Hn Hg) as (t & h' & E1 & E2 & E3 & E4 & E5 & E6).
    rewrite E1. cbn [bind]. exists (SStrided t), h'. split; [reflexivity|]. split; [exact I|].
    split; [exact E2|]. split; [exact E3|]. split; [subst h'; apply extends_alloc|].
    split; [intros x [<-|[]]; cbn [data_addr]; lia|]. split; [exact E6|intros []].
  - (* COO *)
    rewrite coo_fromobject_build by assumption. fold su u. rewrite Hsh.
    destruct (coo_build_ok (fo_get h src a) g sh su u h Hn Hc Hg) as (ind & h' & E1 & E2 & Ea & E3).
    rewrite E1. eexists _, _. split; [reflexivity|]. split; [exact I|]. split; [reflexivity|].
    split; [reflexivity|]. split; [exact E2|].
    split; [intros x [<-|[<-|[]]]; cbn [data_addr baddr]; lia|]. split; [|intros _; exact E3].
    eapply repr_ext; [|apply repr_entries, E3]. intros i Hi. now rewrite entries_of_lookup.
  - (* FlatCOO *)
    assert (Eb : flatcoo_fromobject h src a = flatcoo_build (fo_get h src a) (fo_get_shape src a) su u h).
    { unfold no_shortcut in Hns. unfold flatcoo_fromobject. destruct src as [v|[]]; try reflexivity;
        destruct (is_default a); try reflexivity; contradiction. }
    rewrite Eb, Hsh.
    destruct (flatcoo_build_ok (fo_get h src a) g sh su u h Hn Hc Hg) as (h' & E1 & E2 & E3).
    rewrite E1. eexists _, _. split; [reflexivity|]. split; [exact I|]. split; [reflexivity|].
    split; [reflexivity|]. split; [exact E2|].
    split; [intros x [<-|[<-|[]]]; cbn [data_addr baddr]; lia|]. split; [|intros _; exact E3].
    eapply repr_ext; [|apply repr_entries, E3]. intros i Hi. now rewrite entries_of_lookup.
  - (* CSR *)
    destruct Hc as [Hl Hsp]. unfold csr_fromobject. rewrite coo_fromobject_build.
    2:{ clear - Hns. unfold no_shortcut in *. destruct src as [v|[]], (is_default a); auto. }
    fold su u. rewrite Hsh.
    destruct (coo_build_ok (fo_get h src a) g sh su u h Hn) as (ind & h1 & E1 & E2 & Ea & E3); auto.
    { destruct sh; discriminate. }
    rewrite E1. cbn [bind]. destruct sh as [|n [|m [|? ?]]]; cbn in Hl; try lia.
    destruct (csr_of_coo_ok h1 n m _ _ _ E3) as (cb & cl & d' & h' & F1 & F2 & F3 & F4 & F5).
    { now apply entries_of_nonempty. }
    rewrite F1. eexists _, _. split; [reflexivity|]. split; [exact I|]. split; [reflexivity|].
    split; [exact F4|]. split; [eapply extends_trans; eassumption|].
    split; [eapply fresh_extends; eassumption|]. split; [|intros _; exact F3].
    eapply repr_ext; [|apply repr_entries, F3]. intros i Hi.
    cbn [unspecified_of]. rewrite F4. now rewrite entries_of_lookup.
Qed.

(** Sources of fromobject and their elements. *)
Definition source_repr (h : heap) (src : source) (f : list Z -> pyval) : Prop :=
  match src with
  | SrcSeq v => exists sh, regular sh v /\ forall i, in_box i sh -> f i = nested_elem v i
  | SrcSto s => repr h s f /\ shape_of s <> []
  end.

Lemma source_reads h src f u : source_repr h src f ->
  reads h src (fo_unspecified u) (get_shape src) f.
Proof.
  intros H. unfold reads, fo_get_shape, fo_get, fo_unspecified. cbn [fo_shape fo_gsi].
  split; [reflexivity|]. destruct src as [v|s]; cbn [get_shape].
  - destruct H as (sh & Hr & Hf). rewrite (regular_shape sh v Hr).
    split; [eapply regular_nonneg; eassumption|]. intros i Hi. rewrite Hf by exact Hi.
    now apply regular_value with (sh := sh).
  - destruct H as [Hr Hne]. split; [eapply repr_nonneg; eassumption|].
    intros i Hi. now apply get_value_repr.
Qed.

Lemma some_specified_entries E sh u f : (forall i, in_box i sh -> f i = lookup E u i) ->
  some_specified sh u f -> E <> [].
Proof. intros H (i & Hi & Hv) ->. apply Hv. rewrite H by exact Hi. reflexivity. Qed.

(** as_X and fromobject with an optional unspecified argument. *)
Lemma fromobject_ok c h src f u :
  source_repr h src f ->
  let u' := new_unspec (get_unspecified src) u in
  let f' := fun i => conv_value (get_unspecified src) u' (f i) in
  class_ok c (get_shape src) u' f' ->
  (u = None -> positive (get_shape src)) ->
  exists s h', flat_fromobject c h src (fo_unspecified u) = Ok (s, h') /\ is_class c s
    /\ shape_of s = get_shape src /\ unspecified_of s = u'
    /\ extends h h' /\ repr h' s f'
    /\ (no_shortcut c src (fo_unspecified u) -> fresh h s
        /\ (is_sparse s -> entries h' s (entries_of (get_shape src) u' f')))
    /\ (forall t, src = SrcSto t -> (s = t /\ h' = h /\ u = None) \/ fresh h s).
Proof.
  intros Hsrc u' f' Hc Hpos.
  assert (Eu : fo_get_unspec src (fo_unspecified u) = u') by reflexivity.
  assert (D : {no_shortcut c src (fo_unspecified u)} + {~ no_shortcut c src (fo_unspecified u)}).
  { unfold no_shortcut. destruct src as [|[]], (is_default (fo_unspecified u)), c; auto; left; exact I. }
  destruct D as [Hns|Hns].
  - destruct (build_class c h src (fo_unspecified u) (get_shape src) f Hns (source_reads h src f u Hsrc))
      as (s & h' & E1 & E2 & E3 & E4 & E5 & E6 & E7 & E8).
    { exact Hc. }
    exists s, h'. rewrite E1. split; [reflexivity|]. split; [exact E2|]. split; [exact E3|]. split; [exact E4|].
    split; [exact E5|]. split; [exact E7|]. split; [auto|]. right. exact E6.
  - assert (Hu : u = None).
    { destruct u; [|reflexivity]. exfalso. apply Hns. unfold no_shortcut. destruct src; exact I. }
    subst u. specialize (Hpos eq_refl). cbn [new_unspec] in u'.
    destruct src as [v|s]; [exfalso; apply Hns; exact I|].
    cbn [source_repr get_shape get_unspecified] in *. destruct Hsrc as [Hr Hne].
    assert (Hf' : forall i, f' i = f i) by (intros i; apply conv_value_id).
    assert (Hr' : repr h s f') by (eapply repr_ext; [|exact Hr]; intros; symmetry; apply Hf').
    assert (W : forall P : Prop, (no_shortcut c (SrcSto s) (fo_unspecified None) -> P)) by (intros P Hx; contradiction).
    unfold fo_unspecified, no_shortcut, is_default in Hns.
    destruct c, s; cbn [class_ok] in Hc; try (exfalso; apply Hns; exact I); try contradiction;
      cbn [flat_fromobject]; unfold fo_unspecified;
      unfold buffer_fromobject, strided_fromobject, coo_fromobject, flatcoo_fromobject, csr_fromobject, coo_fromobject;
      cbn [is_default bind].
    + eexists _, h. split; [reflexivity|]. repeat (split; [first [exact I|reflexivity|apply extends_refl|exact Hr'|apply W]|]).
      intros t Et. injection Et as <-. auto.
    + eexists _, h. split; [reflexivity|]. repeat (split; [first [exact I|reflexivity|apply extends_refl|exact Hr'|apply W]|]).
      intros t Et. injection Et as <-. auto.
    + eexists _, h. split; [reflexivity|]. repeat (split; [first [exact I|reflexivity|apply extends_refl|exact Hr'|apply W]|]).
      intros t Et. injection Et as <-. auto.
    + destruct Hr as (E & HE & Hf). cbn [shape_of] in *.
      destruct (coo_of_flatcoo_ok h shape findices data E HE Hpos) as (ind & d' & h' & E1 & E2 & E3 & E4 & E5).
      rewrite E1. eexists _, _. split; [reflexivity|]. split; [exact I|]. split; [reflexivity|].
      split; [exact E4|]. split; [exact E2|]. split; [|split; [apply W|auto]].
      cbn [repr]. exists E. split; [exact E3|]. cbn [shape_of unspecified_of] in *. rewrite E4.
      intros i Hi. rewrite Hf'. now apply Hf.
    + destruct Hr as (E & HE & Hf). cbn [shape_of] in *.
      destruct (flatcoo_of_coo_ok h shape indices data E HE) as (ind & d' & h' & E1 & E2 & E3 & E4 & E5).
      rewrite E1. eexists _, _. split; [reflexivity|]. split; [exact I|]. split; [reflexivity|].
      split; [exact E4|]. split; [exact E2|]. split; [|split; [apply W|auto]].
      cbn [repr]. exists E. split; [exact E3|]. cbn [shape_of unspecified_of] in *. rewrite E4.
      intros i Hi. rewrite Hf'. now apply Hf.
    + eexists _, h. split; [reflexivity|]. repeat (split; [first [exact I|reflexivity|apply extends_refl|exact Hr'|apply W]|]).
      intros t Et. injection Et as <-. auto.
    + destruct Hr as (E & HE & Hf). cbn [shape_of unspecified_of] in *. destruct Hc as [Hl Hsp].
      destruct shape as [|n [|m [|? ?]]]; cbn in Hl; try lia.
      assert (Hne' : E <> []).
      { eapply some_specified_entries; [|exact Hsp]. intros i Hi. rewrite Hf'. apply Hf. exact Hi. }
      destruct (csr_of_coo_ok h n m _ _ _ HE Hne') as (cb & cl & d' & h' & F1 & F2 & F3 & F4 & F5).
      rewrite F1. eexists _, _. split; [reflexivity|]. split; [exact I|]. split; [reflexivity|].
      split; [exact F4|]. split; [exact F2|]. split; [|split; [apply W|auto]].
      cbn [repr]. exists E. split; [exact F3|]. cbn [shape_of unspecified_of] in *. rewrite F4.
      intros i Hi. rewrite Hf'. now apply Hf.
    + destruct Hr as (E & HE & Hf). cbn [shape_of unspecified_of] in *. destruct Hc as [Hl Hsp].
      destruct (coo_of_flatcoo_ok h shape findices data E HE Hpos) as (ind & d1 & h1 & E1 & E2 & E3 & E4 & E5).
      rewrite E1. cbn [bind].
      destruct shape as [|n [|m [|? ?]]]; cbn in Hl; try lia.
      assert (Hne' : E <> []).
      { eapply some_specified_entries; [|exact Hsp]. intros i Hi. rewrite Hf'. apply Hf. exact Hi. }
      destruct (csr_of_coo_ok h1 n m _ _ _ E3 Hne') as (cb & cl & d' & h' & F1 & F2 & F3 & F4 & F5).
      rewrite F1. eexists _, _. split; [reflexivity|]. split; [exact I|]. split; [reflexivity|].
      split; [cbn [unspecified_of]; rewrite F4; exact E4|]. split; [eapply extends_trans; eassumption|].
      split; [|split; [apply W|right; eapply fresh_extends; eassumption]].
      cbn [repr]. exists E. split; [exact F3|]. cbn [shape_of unspecified_of] in *. rewrite F4, E4.
      intros i Hi. rewrite Hf'. now apply Hf.
Qed.

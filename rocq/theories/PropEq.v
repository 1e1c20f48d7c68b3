(** C25, C39, C40: conversion round trips, == and equal().

    [storage_eq h s t] is [s == t], [equal h s other] is [s.equal(other)]. *)
From Coq Require Import Sorting.Sorted Permutation ZifyBool.
From Verif Require Import Py SliceTools Basics Storage Spec SliceFacts IndexFacts
  CompressFacts ReduceFacts SolverFacts SolveFacts Repr ReprFacts ViewFacts BuildFacts SparseFacts
  ConvFacts FromFacts DMFacts ReadFacts MapFacts ChainFacts WriteFacts EffectFacts EqFacts PropRead PropWrite.

(** ** C25 *)

(** s.as_c1().as_c2()... *)
Fixpoint convert_all (h : heap) (s : storage) (cs : list cls) : res (storage * heap) :=
  match cs with
  | [] => Ok (s, h)
  | c :: r => '(t, h1) <- as_storage c h s None ;; convert_all h1 t r
  end.

(** Every enumerated element of a sparse storage differs from the unspecified
    value; a Strided is C-contiguous (not a slice of another array). *)
Definition as_built (h : heap) (s : storage) : Prop :=
  (is_sparse s -> forall l i x, elements h s = Ok l -> In (KTup i, x) l -> x <> unspecified_of s)
  /\ match s with
     | SStrided t => sstrides t = c_strides (sshape t) /\ bsize (sdata t) = product (sshape t)
     | _ => True
     end.

Lemma as_built_normal h s f : repr h s f -> positive (shape_of s) -> as_built h s -> normal h s.
Proof.
  intros Hr Hp [H1 H2].
  assert (K : is_sparse s -> exists E, entries h s E /\ specified_only (unspecified_of s) E).
  { intros Hs. destruct (sparse_entries h s f Hr Hs) as (E & HE & _). exists E. split; [exact HE|].
    apply Forall_forall. intros [i x] Hin. apply (H1 Hs _ i x (elements_sparse h s E HE Hp)).
    apply in_map_iff. now exists (i, x). }
  destruct s; cbn [normal]; auto; apply K; exact I.
Qed.

Lemma convert_all_ok : forall cs h s f, repr h s f -> normal h s ->
  positive (shape_of s) -> shape_of s <> [] ->
  Forall (fun c => class_rank c (shape_of s)) cs ->
  (In CCSR cs -> some_specified (shape_of s) (unspecified_of s) f) ->
  exists t h', convert_all h s cs = Ok (t, h') /\ extends h h'
    /\ shape_of t = shape_of s /\ unspecified_of t = unspecified_of s
    /\ repr h' t f /\ normal h' t
    /\ (cs <> [] -> is_class (last cs CStrided) t).
Proof.
  induction cs as [|c cs IH]; intros h s f Hr Hn Hp Hne Hc Hsp.
  - exists s, h. split; [reflexivity|]. split; [apply extends_refl|]. repeat (split; [auto; fail|]). congruence.
  - inversion Hc as [|? ? Hc1 Hc2]; subst. cbn [convert_all].
    assert (Hv : valid h s) by (eexists; exact Hr).
    destruct (C24_conversion c h s None Hv Hp Hne Hc1) as (t & h1 & E1 & E2 & E3 & [g Hg] & E5 & E6 & E7).
    { intros ->. destruct (Hsp (or_introl eq_refl)) as (i & Hi & Hx). exists i, (f i).
      split; [exact Hi|]. split; [now apply repr_get|]. auto. }
    cbn [chosen] in *. rewrite E1. cbn [bind].
    assert (Ef : forall i, in_box i (shape_of t) -> f i = g i).
    { intros i Hi. pose proof (repr_get h1 t g i Hg Hi) as G. rewrite E6 in Hi. destruct (E7 i Hi) as (x & X1 & X2 & X3).
      rewrite (repr_get h s f i Hr Hi) in X1. injection X1 as <-.
      assert (D : f i = unspecified_of s \/ f i <> unspecified_of s).
      { destruct (veqb (f i) (unspecified_of s)) eqn:Ev; [left; now apply veqb_eq|right].
        intros Q. rewrite Q, veqb_refl in Ev. discriminate. }
      destruct D as [D|D]; [rewrite X2 in G by exact D|rewrite X3 in G by exact D]; congruence. }
    assert (Hr1 : repr h1 t f) by (eapply repr_ext; [|exact Hg]; intros; symmetry; now apply Ef).
    assert (Hn1 : normal h1 t).
    { assert (D : c = CDM \/ c <> CDM) by (destruct c; (left; reflexivity) || (right; discriminate)).
      destruct D as [->|D]; [destruct t; try contradiction; exact I|].
      apply (conversion_normal c h s f t h1 Hr Hn); auto; [|destruct c; try exact E1; congruence].
      destruct c; cbn [class_rank class_ok] in *; auto; try congruence. split; [exact Hc1|]. apply Hsp. now left. }
    destruct (IH h1 t f Hr1 Hn1) as (t' & h' & F1 & F2 & F3 & F4 & F5 & F6 & F7).
    + now rewrite E6. + now rewrite E6. + now rewrite E6.
    + intros Hin. rewrite E6, E3. apply Hsp. now right.
    + exists t', h'. split; [exact F1|]. split; [eapply extends_trans; eassumption|].
      split; [congruence|]. split; [congruence|]. split; [exact F5|]. split; [exact F6|]. intros _.
      destruct cs as [|c2 cs]; [|apply F7; discriminate]. cbn [convert_all] in F1. injection F1 as <- <-. exact E2.
Qed.

(** Converting an array any number of times and back to its class gives an
    array == to the original. *)
Theorem C25_round_trips : forall cs c h s,
  valid h s -> is_class c s -> c <> CDM -> as_built h s ->
  positive (shape_of s) -> shape_of s <> [] ->
  Forall (fun c' => class_rank c' (shape_of s)) cs ->
  (In CCSR cs -> some_element_stays h s (unspecified_of s)) ->
  (c = CCSR -> some_element_stays h s (unspecified_of s)) ->
  exists t h', convert_all h s (cs ++ [c]) = Ok (t, h')
    /\ is_class c t /\ extends h h' /\ storage_eq h' s t = Ok true.
Proof.
  intros cs c h s [f Hr] Hc Hdm Hb Hp Hne Hcs Hst Hst'.
  pose proof (as_built_normal h s f Hr Hp Hb) as Hn.
  assert (Hsome : some_element_stays h s (unspecified_of s) -> some_specified (shape_of s) (unspecified_of s) f).
  { intros (i & x & Hi & Hx & N & _). exists i. split; [exact Hi|]. rewrite (repr_get h s f i Hr Hi) in Hx. congruence. }
  assert (Hrank : class_rank c (shape_of s)).
  { destruct c, s; try contradiction; cbn [class_rank shape_of]; auto; try congruence.
    destruct Hr as (E & (_ & H & _) & _). exact H. }
  destruct (convert_all_ok (cs ++ [c]) h s f Hr Hn Hp Hne) as (t & h' & F1 & F2 & F3 & F4 & F5 & F6 & F7).
  { apply Forall_app. split; [exact Hcs|]. repeat constructor. exact Hrank. }
  { intros Hin. apply in_app_or in Hin. destruct Hin as [Hin|[E|[]]]; auto. }
  exists t, h'. split; [exact F1|].
  assert (Hct : is_class c t).
  { specialize (F7 ltac:(destruct cs; discriminate)). now rewrite last_last in F7. }
  split; [exact Hct|]. split; [exact F2|].
  assert (Hr' : repr h' s f) by (eapply repr_extends; eassumption).
  apply (normal_eq h' s t f f); auto.
  - eapply normal_extends; eassumption.
  - destruct c, s, t; try contradiction; try exact I; congruence.
  - destruct c, s; try contradiction; try exact I; congruence.
Qed.
Print Assumptions C25_round_trips.

(** The result of fromobject on a rectangular list meets [as_built]. *)
Theorem C25_fromobject_as_built : forall c h v sh u,
  regular sh v -> positive sh -> class_rank c sh -> c <> CDM ->
  let u' := chosen VNone u in
  (c = CCSR -> exists i x, in_box i sh /\ nested_at v i = Some x /\ x <> VNone /\ x <> u') ->
  exists s h', fromobject c h (SrcSeq v) (fo_unspecified u) = Ok (s, h') /\ valid h' s /\ is_class c s
    /\ shape_of s = sh /\ as_built h' s.
Proof.
  intros c h v sh u Hreg Hp Hc Hd u' Hsp.
  assert (Hc' : class_ok c sh u' (fo_value (SrcSeq v) (fo_unspecified u) (nested_elem v))).
  { destruct c; cbn [class_rank class_ok] in *; auto; try congruence. split; [exact Hc|].
    destruct (Hsp eq_refl) as (i & x & Hi & Hx & N1 & N2). exists i. split; [exact Hi|].
    unfold fo_value, nested_elem. cbn [get_unspecified]. rewrite Hx. now apply conv_differs. }
  assert (Hsrc : source_repr h (SrcSeq v) (nested_elem v)) by (exists sh; split; [exact Hreg|reflexivity]).
  pose proof (source_reads h (SrcSeq v) (nested_elem v) u Hsrc) as Hreads.
  cbn [get_shape] in Hreads. rewrite (regular_shape sh v Hreg) in Hreads.
  destruct (build_class c h (SrcSeq v) (fo_unspecified u) sh (nested_elem v) I Hreads Hc')
    as (s & h' & E1 & E2 & E3 & E4 & E5 & E6 & E7 & E8).
  exists s, h'. split; [destruct c; try exact E1; congruence|]. split; [eexists; exact E7|]. split; [exact E2|].
  split; [exact E3|]. split.
  - intros Hs l i x El Hin. specialize (E8 Hs). rewrite (elements_sparse h' s _ E8) in El by now rewrite E3.
    injection El as <-. apply in_map_iff in Hin. destruct Hin as ([j y] & Ej & Hin). injection Ej as -> ->.
    pose proof (entries_of_specified sh (fo_get_unspec (SrcSeq v) (fo_unspecified u))
      (fo_value (SrcSeq v) (fo_unspecified u) (nested_elem v))) as Q.
    unfold specified_only in Q. rewrite Forall_forall in Q. specialize (Q _ Hin). cbn [snd] in Q. now rewrite E4.
  - destruct s; try exact I. destruct c; try contradiction. cbn [flat_fromobject] in E1.
    unfold strided_fromobject in E1. destruct Hreads as (R1 & R2 & R3). rewrite R1 in E1.
    destruct (strided_build _ _ _ _ _) as [[t0 h0]|] eqn:Es; [|discriminate].
    cbn [bind] in E1. injection E1 as <- <-. now apply (strided_build_contiguous _ (nested_elem v) _ _ _ _ _ _ R2 R3) in Es.
Qed.
Print Assumptions C25_fromobject_as_built.

(** [[0, 5], [7, 0]]: COO, FlatCOO, CSR, Strided, DimensionMap and back. *)
Definition nested_diag : pyval := VSeq [VSeq [VInt 0; VInt 5]; VSeq [VInt 7; VInt 0]].
Example C25_case :
  ('(s, h) <- fromobject CCOO [] (SrcSeq nested_diag) (fo_unspecified (Some (VInt 0))) ;;
   '(t, h1) <- convert_all h s [CFlatCOO; CCSR; CStrided; CDM; CCOO] ;;
   b <- storage_eq h1 s t ;; e <- elements h1 t ;; Ok (b, e))
  = Ok (true, [(KTup [0; 1], VInt 5); (KTup [1; 0], VInt 7)]).
Proof. vm_compute. reflexivity. Qed.
(** The hypothesis on stored values is needed: an explicit 0 in a COO with
    unspecified value 0 is dropped on the way through a Strided. *)
Example C25_explicit_unspecified :
  ('(s, h) <- fromobject CCOO [] (SrcSeq nested_diag) (fo_unspecified (Some (VInt 0))) ;;
   let '(h', _) := setitem h s (XTuple [IInt 0; IInt 1]) (SrcSeq (VInt 0)) in
   '(t, h1) <- convert_all h' s [CStrided; CCOO] ;;
   b <- storage_eq h1 s t ;; Ok b) = Ok false.
Proof. vm_compute. reflexivity. Qed.

(** ** C39 *)

(** Two storages that compare equal have the same class, shape, unspecified
    value and elements, unless an axis has been reversed by a slice. *)
Theorem C39_equality_partial : forall h s t,
  valid h s -> valid h t -> forward s -> storage_eq h s t = Ok true ->
  same_class s t /\ shape_of s = shape_of t /\ unspecified_of s = unspecified_of t
  /\ forall i, in_box i (shape_of s) -> get_elem h s i = get_elem h t i.
Proof.
  intros h s t [f Hs] [g Ht] Hf E. destruct (eq_elements s t h f g Hs Ht Hf E) as (E1 & E2 & E3 & E4).
  split; [exact E1|]. split; [exact E2|]. split; [exact E3|]. intros i Hi.
  rewrite (repr_get h s f i Hs Hi), (repr_get h t g i Ht) by now rewrite <- E2. now rewrite E4.
Qed.
Print Assumptions C39_equality_partial.

(** == never raises, is reflexive, and is exact for the sparse classes. *)
Theorem C39_total : forall h s t, valid h s -> valid h t -> exists b, storage_eq h s t = Ok b.
Proof. intros h s t [f Hs] [g Ht]. eapply storage_eq_total; eassumption. Qed.
Print Assumptions C39_total.

Lemma c_strides_nonneg sh : nonneg sh -> Forall (fun k => 0 <= k) (c_strides sh).
Proof.
  intros H. induction H as [|n sh Hn Hp IH]; cbn; constructor; auto. clear - Hp. induction Hp; cbn; nia.
Qed.

Lemma normal_exact h s t f g : repr h s f -> repr h t g -> normal h s -> normal h t -> same_class s t ->
  match s with SDM _ _ _ _ _ _ => False | _ => True end -> nonneg (shape_of s) ->
  (storage_eq h s t = Ok true
   <-> shape_of s = shape_of t /\ unspecified_of s = unspecified_of t
       /\ forall i, in_box i (shape_of s) -> get_elem h s i = get_elem h t i).
Proof.
  intros Hs Ht Ns Nt Hc Hd Ps. split.
  - intros E.
    assert (Hf : forward s).
    { destruct s; try exact I; [|contradiction]. cbn [forward]. destruct Ns as [-> _]. now apply c_strides_nonneg. }
    destruct (eq_elements s t h f g Hs Ht Hf E) as (_ & E2 & E3 & E4). split; [exact E2|]. split; [exact E3|].
    intros i Hi. rewrite (repr_get h s f i Hs Hi), (repr_get h t g i Ht) by now rewrite <- E2. now rewrite E4.
  - intros (E1 & E2 & E3). apply (normal_eq h s t f g); auto. intros i Hi. specialize (E3 i Hi).
    rewrite (repr_get h s f i Hs Hi), (repr_get h t g i Ht) in E3 by now rewrite <- E1. congruence.
Qed.

(** Arrays as fromobject and the conversions build them compare equal exactly if
    they have the same shape, unspecified value and elements. *)
Theorem C39_as_built_exact : forall h s t,
  valid h s -> valid h t -> as_built h s -> as_built h t -> same_class s t ->
  match s with SDM _ _ _ _ _ _ => False | _ => True end ->
  positive (shape_of s) -> positive (shape_of t) ->
  (storage_eq h s t = Ok true
   <-> shape_of s = shape_of t /\ unspecified_of s = unspecified_of t
       /\ forall i, in_box i (shape_of s) -> get_elem h s i = get_elem h t i).
Proof.
  intros h s t [f Hs] [g Ht] As At Hc Hd Ps Pt.
  apply (normal_exact h s t f g); auto; [now apply (as_built_normal h s f)|now apply (as_built_normal h t g)|].
  revert Ps. apply Forall_impl. intros a. lia.
Qed.
Print Assumptions C39_as_built_exact.

(** The same for DM arrays that are mapped alike, onto arrays as built and without
    elements outside of the DM array. *)
Theorem C39_dm_exact : forall h sh rd rsh rs ro d rsh' d',
  valid h (SDM sh rd rsh rs ro d) -> valid h (SDM sh rd rsh' rs ro d') ->
  as_built h d -> as_built h d' -> same_class d d' -> match d with SDM _ _ _ _ _ _ => False | _ => True end ->
  positive (shape_of d) -> shape_of d = shape_of d' ->
  (forall j, in_box j (shape_of d) -> exists i, in_box i sh /\ dm_index rd rs ro i = j) ->
  let s := SDM sh rd rsh rs ro d in
  let t := SDM sh rd rsh' rs ro d' in
  (storage_eq h s t = Ok true
   <-> unspecified_of s = unspecified_of t /\ forall i, in_box i sh -> get_elem h s i = get_elem h t i).
Proof.
  intros h sh rd rsh rs ro d rsh' d' [f Hs] [g Ht] Ad Ad' Hc Hd Pd Hsd Hcov s t.
  pose proof Hs as (f' & Hf' & Kd & Hf). pose proof Ht as (g' & Hg' & Kd' & Hg).
  assert (E : storage_eq h s t = storage_eq h d d').
  { unfold s, t. cbn [storage_eq].
    now rewrite (proj2 (lex_eqb_eq sh sh) eq_refl), (proj2 (lex_eqb_eq ro ro) eq_refl),
      (proj2 (zll_eqb_eq rd rd) eq_refl), (proj2 (zll_eqb_eq rs rs) eq_refl). }
  assert (V : valid h d) by (eexists; exact Hf'). assert (V' : valid h d') by (eexists; exact Hg').
  rewrite E, (C39_as_built_exact h d d' V V' Ad Ad' Hc Hd Pd) by now rewrite <- Hsd.
  assert (Gs : forall i, in_box i sh -> get_elem h s i = Ok (f i)) by (intros i Hi; exact (repr_get h s f i Hs Hi)).
  assert (Gt : forall i, in_box i sh -> get_elem h t i = Ok (g i)) by (intros i Hi; exact (repr_get h t g i Ht Hi)).
  unfold s, t. cbn [unspecified_of]. split.
  - intros (_ & Hu & He). split; [exact Hu|]. intros i Hi. fold s t. rewrite Gs, Gt by exact Hi.
    rewrite Hf, Hg by exact Hi. pose proof (dm_box _ _ _ _ _ _ Kd i Hi) as Hj. specialize (He _ Hj).
    rewrite (repr_get h d f' _ Hf' Hj), (repr_get h d' g' _ Hg') in He by now rewrite <- Hsd. exact He.
  - intros (Hu & He). split; [exact Hsd|]. split; [exact Hu|]. intros j Hj. destruct (Hcov j Hj) as (i & Hi & <-).
    specialize (He i Hi). fold s t in He. rewrite Gs, Gt, Hf, Hg in He by exact Hi.
    rewrite (repr_get h d f' _ Hf' Hj), (repr_get h d' g' _ Hg') by now rewrite <- Hsd. exact He.
Qed.
Print Assumptions C39_dm_exact.

(** Two arrays of a class made from nested lists are equal exactly if the lists
    are, with the unspecified value for None. *)
Definition entry (u : pyval) (v : pyval) (i : list Z) : option pyval :=
  match nested_at v i with Some VNone => Some u | o => o end.

Theorem C39_lists_exact : forall c h v sh u w sh' u' s t h1 h2,
  regular sh v -> positive sh -> class_rank c sh -> regular sh' w -> positive sh' -> class_rank c sh' -> c <> CDM ->
  (c = CCSR -> exists i x, in_box i sh /\ nested_at v i = Some x /\ x <> VNone /\ x <> chosen VNone u) ->
  (c = CCSR -> exists i x, in_box i sh' /\ nested_at w i = Some x /\ x <> VNone /\ x <> chosen VNone u') ->
  fromobject c h (SrcSeq v) (fo_unspecified u) = Ok (s, h1) ->
  fromobject c h1 (SrcSeq w) (fo_unspecified u') = Ok (t, h2) ->
  (storage_eq h2 s t = Ok true
   <-> sh = sh' /\ chosen VNone u = chosen VNone u'
       /\ forall i, in_box i sh -> entry (chosen VNone u) v i = entry (chosen VNone u') w i).
Proof.
  intros c h v sh u w sh' u' s t h1 h2 Rv Pv Cv Rw Pw Cw Hd Sv Sw Es Et.
  destruct (C25_fromobject_as_built c h v sh u Rv Pv Cv Hd Sv) as (s0 & g1 & F1 & _ & Ks & _ & As).
  rewrite Es in F1. injection F1 as <- <-.
  destruct (C25_fromobject_as_built c h1 w sh' u' Rw Pw Cw Hd Sw) as (t0 & g2 & F2 & _ & Kt & _ & At).
  rewrite Et in F2. injection F2 as <- <-.
  destruct (C22_fromobject_elements c h v sh u Rv Cv Sv) as (s0 & g1 & F1 & _ & Ss & Us & Vs & Gs).
  rewrite Es in F1. injection F1 as <- <-.
  destruct (C22_fromobject_elements c h1 w sh' u' Rw Cw Sw) as (t0 & g2 & F2 & _ & St & Ut & Vt & Gt).
  rewrite Et in F2. injection F2 as <- <-.
  assert (Hx : extends h1 h2).
  { assert (Hsrc : source_repr h1 (SrcSeq w) (nested_elem w)) by (exists sh'; split; [exact Rw|reflexivity]).
    pose proof (source_reads h1 (SrcSeq w) (nested_elem w) u' Hsrc) as Hreads.
    cbn [get_shape] in Hreads. rewrite (regular_shape sh' w Rw) in Hreads.
    destruct (build_class c h1 (SrcSeq w) (fo_unspecified u') sh' (nested_elem w)) as (t1 & g3 & E1 & _ & _ & _ & E5 & _); auto.
    - destruct c; try exact I; congruence.
    - destruct c; cbn [class_rank class_ok] in *; auto; try congruence. split; [exact Cw|].
      destruct (Sw eq_refl) as (i & x & Hi & Hxx & N1 & N2). exists i. split; [exact Hi|].
      unfold fo_value, nested_elem. cbn [get_unspecified]. rewrite Hxx. now apply conv_differs.
    - assert (F : fromobject c h1 (SrcSeq w) (fo_unspecified u') = flat_fromobject c h1 (SrcSeq w) (fo_unspecified u'))
        by (destruct c; try reflexivity; congruence).
      rewrite F, E1 in Et. injection Et as <- <-. exact E5. }
  destruct Vs as [f Hf]. assert (Hf2 : repr h2 s f) by (eapply repr_extends; eassumption).
  assert (Gs2 : forall i, in_box i sh -> get_elem h2 s i = get_elem h1 s i).
  { intros i Hi. rewrite (repr_get h2 s f i Hf2), (repr_get h1 s f i Hf) by now rewrite Ss. reflexivity. }
  assert (Ns : normal h2 s).
  { apply (normal_extends h1); [exact Hx|]. apply (as_built_normal h1 s f Hf); [now rewrite Ss|exact As]. }
  destruct Vt as [g Hg].
  rewrite (normal_exact h2 s t f g); auto; [|apply (as_built_normal h2 t g Hg); [now rewrite St|exact At]
    |destruct c, s, t; try contradiction; exact I|destruct c, s; try contradiction; try exact I; congruence
    |rewrite Ss; revert Pv; apply Forall_impl; intros a; lia].
  rewrite Ss, St, Us, Ut. split; intros (E1 & E2 & E3); (split; [exact E1|]); (split; [exact E2|]); intros i Hi;
    specialize (E3 i Hi).
  all: rewrite <- E1 in Gt; destruct (Gs i Hi) as (x & Nx & X1 & X2); destruct (Gt i Hi) as (y & Ny & Y1 & Y2);
    rewrite <- E2 in Y1; rewrite <- ?E2; try rewrite <- E2 in E3; rewrite <- (Gs2 i Hi) in X1, X2;
    unfold entry in *; rewrite ?Nx, ?Ny in *; clear - E3 X1 X2 Y1 Y2.
  all: destruct x, y; repeat match goal with
      | H : VNone = VNone -> _ |- _ => specialize (H eq_refl)
      | H : VNone <> VNone -> _ |- _ => clear H
      | H : _ <> VNone -> _ |- _ => specialize (H ltac:(discriminate))
      end; congruence.
Qed.
Print Assumptions C39_lists_exact.

Example C39_case_lists :
  let v := VSeq [VInt 1; VNone; VInt 0] in let w := VSeq [VInt 1; VInt 0; VNone] in
  ('(s, h) <- fromobject CCOO [] (SrcSeq v) (fo_unspecified (Some (VInt 0))) ;;
   '(t, h1) <- fromobject CCOO h (SrcSeq w) (fo_unspecified (Some (VInt 0))) ;; storage_eq h1 s t) = Ok true
  /\ regular [3] v /\ regular [3] w /\ positive [3].
Proof. split; [vm_compute; reflexivity|]. repeat split; repeat constructor; lia. Qed.


Theorem C39_sparse_exact : forall h s t,
  valid h s -> valid h t -> is_sparse s -> same_class s t ->
  positive (shape_of s) -> positive (shape_of t) ->
  (storage_eq h s t = Ok true
   <-> shape_of s = shape_of t /\ unspecified_of s = unspecified_of t /\ elements h s = elements h t).
Proof.
  intros h s t [f Hs] [g Ht] Hsp Hc Hp Hq.
  assert (Hsp' : is_sparse t) by (destruct s, t; try contradiction; exact I).
  destruct (sparse_entries h s f Hs Hsp) as (E & HE & _). destruct (sparse_entries h t g Ht Hsp') as (F & HF & _).
  destruct (sparse_eq_ok h s t E F HE HF Hc) as (r & Er & Hr). rewrite Er.
  rewrite (elements_sparse h s E HE Hp), (elements_sparse h t F HF Hq). split.
  - intros X. injection X as ->. destruct (proj1 Hr eq_refl) as (A & B & C). now rewrite C.
  - intros (A & B & C). f_equal. apply Hr. split; [exact A|]. split; [exact B|]. injection C as C.
    apply (map_inj_in (fun e => (KTup (fst e), snd e))) in C; [exact C|].
    intros [i x] [j y] _ _ Ex. cbn in Ex. congruence.
Qed.
Print Assumptions C39_sparse_exact.

(** [1, 2, 3] and [9, 9, 3], both reversed by [::-1], compare equal although
    their elements differ. *)
Definition reversed_pair : res (storage * storage * heap) :=
  '(a, h) <- fromobject CStrided [] (SrcSeq list_3) fo_default ;;
  '(b, h1) <- fromobject CStrided h (SrcSeq (VSeq [VInt 9; VInt 9; VInt 3])) fo_default ;;
  '(a', h2) <- getitems h1 a [XItem (ISlice (Sl None None (Some (-1))))] ;;
  '(b', h3) <- getitems h2 b [XItem (ISlice (Sl None None (Some (-1))))] ;;
  Ok (a', b', h3).

Theorem C39_equality_refuted :
  ~ (forall h s t, valid h s -> valid h t -> storage_eq h s t = Ok true ->
       shape_of s = shape_of t /\ forall i, in_box i (shape_of s) -> get_elem h s i = get_elem h t i)
  /\ exists s t h, reversed_pair = Ok (s, t, h) /\ valid h s /\ valid h t
       /\ storage_eq h s t = Ok true
       /\ get_elem h s [1] = Ok (VInt 2) /\ get_elem h t [1] = Ok (VInt 9).
Proof.
  assert (K : exists s t h, reversed_pair = Ok (s, t, h) /\ valid h s /\ valid h t
       /\ storage_eq h s t = Ok true
       /\ get_elem h s [1] = Ok (VInt 2) /\ get_elem h t [1] = Ok (VInt 9) /\ in_box [1] (shape_of s)).
  { destruct (C22_fromobject_elements CStrided [] list_3 [3] None) as (a & h & A1 & _ & A2 & _ & A3 & _);
      [repeat constructor|exact I|discriminate|].
    destruct (C22_fromobject_elements CStrided h (VSeq [VInt 9; VInt 9; VInt 3]) [3] None) as (b & h1 & B1 & B0 & B2 & _ & B3 & _);
      [repeat constructor|exact I|discriminate|].
    unfold reversed_pair.
    pose proof A1 as A1'. vm_compute in A1'. injection A1' as <- <-.
    pose proof B1 as B1'. vm_compute in B1'. injection B1' as <- <-.
    assert (Hix : chain_ok [XItem (ISlice (Sl None None (Some (-1))))] [3]).
    { cbn [chain_ok]. change (slice_shape (XItem (ISlice (Sl None None (Some (-1))))) [3]) with [3].
      split; [repeat constructor; lia|]. split; [split; [repeat constructor; cbn; lia|right; cbn; lia]|].
      split; [discriminate|exact I]. }
    eexists _, _, _. split; [vm_compute; reflexivity|].
    match goal with |- valid ?h ?s /\ valid _ ?t /\ _ => set (hh := h); set (ss := s); set (tt' := t) end.
    assert (V1 : valid hh ss).
    { assert (X : valid hh (SStrided (Str [3] [1] (Buf 3 0 0 VNone)))).
      { destruct A3 as [f Hf]. exists f. eapply repr_extends; [|exact Hf]. exists [[VInt 9; VInt 9; VInt 3]]. reflexivity. }
      destruct (C26_strided_slices hh _ _ X Hix) as (t' & T1 & T2 & _). vm_compute in T1. injection T1 as <-. exact T2. }
    assert (V2 : valid hh tt').
    { destruct (C26_strided_slices hh _ _ B3 Hix) as (t' & T1 & T2 & _). vm_compute in T1. injection T1 as <-. exact T2. }
    split; [exact V1|]. split; [exact V2|]. split; [vm_compute; reflexivity|].
    split; [vm_compute; reflexivity|]. split; [vm_compute; reflexivity|]. repeat constructor; cbn; lia. }
  destruct K as (s & t & h & K1 & K2 & K3 & K4 & K5 & K6 & K7). split.
  - intros H. destruct (H h s t K2 K3 K4) as [_ H2]. rewrite (H2 [1] K7), K6 in K5. discriminate.
  - exists s, t, h. auto 6.
Qed.
Print Assumptions C39_equality_refuted.

Example C39_case :
  ('(a, h) <- fromobject CStrided [] (SrcSeq nested_2x3) fo_default ;;
   '(b, h1) <- fromobject CStrided h (SrcSeq nested_2x3) fo_default ;;
   '(a', h2) <- getitems h1 a [XTuple [INone; ISlice (Sl (Some 1) None None)]] ;;
   '(b', h3) <- getitems h2 b [XTuple [INone; ISlice (Sl (Some 1) None None)]] ;;
   x <- storage_eq h3 a b ;; y <- storage_eq h3 a' b' ;; z <- storage_eq h3 a a' ;; Ok (x, y, z))
  = Ok (true, true, false).
Proof. vm_compute. reflexivity. Qed.

(** ** C40 *)

(** equal() compares the enumerated elements: index sets and values. *)
Definition not_buffer (s : storage) : Prop := match s with SBuffer _ => False | _ => True end.

Definition same_stored (h : heap) (s t : storage) : Prop :=
  (forall i, stored h s i <-> stored h t i)
  /\ (forall i, stored h s i -> get_elem h s i = get_elem h t i).

(** Elements enumerated by a storage other than a Buffer, in terms of [stored]
    and element access. *)
Lemma elements_stored h s f : repr h s f -> not_buffer s -> (is_sparse s -> positive (shape_of s)) ->
  exists l, elements h s = Ok l
    /\ forall p, In p l <-> exists i x, p = (KTup i, x) /\ stored h s i /\ get_elem h s i = Ok x.
Proof.
  intros Hr Hb Hp. destruct (elem_data_cases s h f Hr) as [H|[H|H]].
  - destruct s; try contradiction. eexists. split; [exact (elements_dense h _ f Hr I)|].
    intros [k x]. rewrite in_map_iff. split.
    + intros (i & Ei & Hi). injection Ei as <- <-. apply In_cart in Hi. exists i, (f i). split; [reflexivity|].
      split; [now apply (stored_dense h _ f i Hr I)|now apply repr_get].
    + intros (i & y & Ey & Hs & Hg). injection Ey as -> ->. apply (stored_dense h _ f i Hr I) in Hs.
      exists i. rewrite (repr_get h _ f i Hr Hs) in Hg. injection Hg as ->. split; [reflexivity|now apply In_cart].
  - specialize (Hp H). destruct (sparse_entries h s f Hr H) as (E & HE & _).
    pose proof (entries_ordered h s E HE) as Ho. pose proof (ordered_NoDup _ _ Ho) as Hnd.
    assert (G : forall i x, In (i, x) E -> get_elem h s i = Ok x).
    { intros i x Hin. destruct Ho as [Hbx _]. rewrite Forall_forall in Hbx. specialize (Hbx _ Hin).
      rewrite (repr_get h s _ i (repr_entries h s E HE) Hbx). f_equal. now apply In_lookup. }
    eexists. split; [exact (elements_sparse h s E HE Hp)|]. intros [k x]. rewrite in_map_iff. split.
    + intros ([i y] & Ei & Hin). injection Ei as <- <-. exists i, y. split; [reflexivity|].
      split; [apply (stored_sparse h s E i HE Hp); now apply (in_map fst) in Hin|now apply G].
    + intros (i & y & Ey & Hs & Hg). injection Ey as -> ->. apply (stored_sparse h s E i HE Hp) in Hs.
      apply in_map_iff in Hs. destruct Hs as ([j z] & Ej & Hin). cbn in Ej. subst j. exists (i, z).
      split; [|exact Hin]. rewrite (G i z Hin) in Hg. injection Hg as ->. reflexivity.
  - destruct s; try contradiction. eexists. split; [exact (elements_dense h _ f Hr I)|].
    intros [k x]. rewrite in_map_iff. split.
    + intros (i & Ei & Hi). injection Ei as <- <-. apply In_cart in Hi. exists i, (f i). split; [reflexivity|].
      split; [now apply (stored_dense h _ f i Hr I)|now apply repr_get].
    + intros (i & y & Ey & Hs & Hg). injection Ey as -> ->. apply (stored_dense h _ f i Hr I) in Hs.
      exists i. rewrite (repr_get h _ f i Hr Hs) in Hg. injection Hg as ->. split; [reflexivity|now apply In_cart].
Qed.

Lemma stored_get h s f i : repr h s f -> stored h s i -> (is_sparse s -> positive (shape_of s)) -> not_buffer s ->
  exists x, get_elem h s i = Ok x.
Proof.
  intros Hr Hs Hp Hb. destruct (elements_stored h s f Hr Hb Hp) as (l & El & Hl).
  pose proof Hs as (l' & x & El' & Hin). rewrite El in El'. injection El' as <-. apply Hl in Hin.
  destruct Hin as (j & y & Ey & _ & Hy). injection Ey as <- <-. eauto.
Qed.

Theorem C40_characterised : forall h s t,
  valid h s -> valid h t -> not_buffer s -> not_buffer t ->
  (is_sparse s -> positive (shape_of s)) -> (is_sparse t -> positive (shape_of t)) ->
  exists b, equal h s (SrcSto t) = Ok b /\ (b = true <-> same_stored h s t).
Proof.
  intros h s t [f Hs] [g Ht] Bs Bt Ps Pt.
  destruct (elements_stored h s f Hs Bs Ps) as (l & El & Hl).
  destruct (elements_stored h t g Ht Bt Pt) as (m & Em & Hm).
  destruct (equal_ok h s t f g l m Hs Ht Ps Pt El Em) as (b & Eb & Hb). exists b. split; [exact Eb|]. rewrite Hb.
  clear Eb Hb b. split.
  - intros H. split.
    + intros i. split; intros Hi.
      * destruct (stored_get h s f i Hs Hi Ps Bs) as (x & Hx).
        destruct (proj1 (Hm (KTup i, x)) (proj1 (H _) (proj2 (Hl _) (ex_intro _ i (ex_intro _ x (conj eq_refl (conj Hi Hx)))))))
          as (j & y & E & Hj & _). injection E as <- <-. exact Hj.
      * destruct (stored_get h t g i Ht Hi Pt Bt) as (x & Hx).
        destruct (proj1 (Hl (KTup i, x)) (proj2 (H _) (proj2 (Hm _) (ex_intro _ i (ex_intro _ x (conj eq_refl (conj Hi Hx)))))))
          as (j & y & E & Hj & _). injection E as <- <-. exact Hj.
    + intros i Hi. destruct (stored_get h s f i Hs Hi Ps Bs) as (x & Hx).
      destruct (proj1 (Hm (KTup i, x)) (proj1 (H _) (proj2 (Hl _) (ex_intro _ i (ex_intro _ x (conj eq_refl (conj Hi Hx)))))))
        as (j & y & E & _ & Hy). injection E as <- <-. congruence.
  - intros [H1 H2] p. rewrite Hl, Hm. split; intros (i & x & -> & Hi & Hx); exists i, x; (split; [reflexivity|]).
    + split; [now apply H1|]. rewrite <- H2; assumption.
    + assert (Hi' : stored h s i) by now apply H1. split; [exact Hi'|]. rewrite H2; assumption.
Qed.
Print Assumptions C40_characterised.

Lemma in_box_shape sh sh' : positive sh -> positive sh' -> (forall i, in_box i sh <-> in_box i sh') -> sh = sh'.
Proof.
  intros H H' E.
  assert (K : forall sh sh', positive sh -> positive sh' -> in_box (map (fun n => n - 1) sh) sh' ->
    Forall2 Z.le sh sh').
  { clear. intros sh sh' H H'. revert sh' H'. induction H as [|n sh Hn H IH]; intros sh' H' Hb; inversion Hb; subst; constructor.
    - lia. - inversion H'; subst. now apply IH. }
  assert (B : forall sh, positive sh -> in_box (map (fun n => n - 1) sh) sh).
  { clear. intros sh H. induction H; cbn [map]; constructor; auto. lia. }
  pose proof (K sh sh' H H' (proj1 (E _) (B sh H))) as L1. pose proof (K sh' sh H' H (proj2 (E _) (B sh' H'))) as L2.
  clear - L1 L2. induction L1 in L2 |- *; [reflexivity|]. inversion L2; subst. f_equal; [lia|]. now apply IHL1.
Qed.

(** Strided and DimensionMap: equal() decides element-wise equality. *)
Theorem C40_dense_partial : forall h s t,
  valid h s -> valid h t -> is_dense s -> is_dense t ->
  exists b, equal h s (SrcSto t) = Ok b
    /\ (b = true <-> (forall i, in_box i (shape_of s) <-> in_box i (shape_of t))
                     /\ forall i, in_box i (shape_of s) -> get_elem h s i = get_elem h t i)
    /\ (positive (shape_of s) -> positive (shape_of t) -> b = true -> shape_of s = shape_of t).
Proof.
  intros h s t Vs Vt Ds Dt.
  destruct (C40_characterised h s t Vs Vt) as (b & Eb & Hb);
    [destruct s; try contradiction; exact I|destruct t; try contradiction; exact I|destruct s; contradiction|destruct t; contradiction|].
  exists b. split; [exact Eb|]. destruct Vs as [f Hs], Vt as [g Ht].
  assert (Q : b = true <-> (forall i, in_box i (shape_of s) <-> in_box i (shape_of t))
                     /\ forall i, in_box i (shape_of s) -> get_elem h s i = get_elem h t i).
  { rewrite Hb. unfold same_stored. split; intros [H1 H2]; split; intros i.
    - rewrite <- (stored_dense h s f i Hs Ds), <- (stored_dense h t g i Ht Dt). apply H1.
    - intros Hi. apply H2. now apply (stored_dense h s f i Hs Ds).
    - rewrite (stored_dense h s f i Hs Ds), (stored_dense h t g i Ht Dt). apply H1.
    - intros Hi. apply H2. now apply (stored_dense h s f i Hs Ds). }
  split; [exact Q|]. intros P1 P2 Et. apply in_box_shape; auto. now apply Q.
Qed.
Print Assumptions C40_dense_partial.

(** Sparse storages of one shape and unspecified value, without explicitly
    stored unspecified values, whatever their classes. *)
Definition no_stored_unspecified (h : heap) (s : storage) : Prop :=
  forall i, stored h s i -> get_elem h s i <> Ok (unspecified_of s).

Theorem C40_sparse_partial : forall h s t,
  valid h s -> valid h t -> is_sparse s -> is_sparse t ->
  positive (shape_of s) -> shape_of s = shape_of t -> unspecified_of s = unspecified_of t ->
  no_stored_unspecified h s -> no_stored_unspecified h t ->
  exists b, equal h s (SrcSto t) = Ok b
    /\ (b = true <-> forall i, in_box i (shape_of s) -> get_elem h s i = get_elem h t i).
Proof.
  intros h s t Vs Vt Ss St Hp Hsh Hu Ns Nt.
  destruct (C40_characterised h s t Vs Vt) as (b & Eb & Hb); auto;
    [destruct s; try contradiction; exact I|destruct t; try contradiction; exact I|intros _; now rewrite <- Hsh|].
  exists b. split; [exact Eb|]. rewrite Hb. clear Eb Hb b.
  destruct Vs as [f Hs], Vt as [g Ht].
  destruct (sparse_entries h s f Hs Ss) as (E & HE & _). destruct (sparse_entries h t g Ht St) as (F & HF & _).
  assert (Hq : positive (shape_of t)) by now rewrite <- Hsh.
  assert (A : forall s E, entries h s E -> positive (shape_of s) -> forall i, in_box i (shape_of s) -> ~ stored h s i -> get_elem h s i = Ok (unspecified_of s)).
  { clear. intros s E HE Hp i Hi Hn. rewrite (repr_get h s _ i (repr_entries h s E HE) Hi). f_equal. apply lookup_absent.
    intros Hin. apply Hn. now apply (stored_sparse h s E i HE Hp). }
  assert (B : forall s E, entries h s E -> positive (shape_of s) -> forall i, stored h s i -> in_box i (shape_of s)).
  { clear. intros s E HE Hp i Hi. apply (stored_sparse h s E i HE Hp) in Hi. apply in_map_iff in Hi.
    destruct Hi as (e & <- & He). pose proof (entries_ordered h s E HE) as [Ho _]. rewrite Forall_forall in Ho. now apply Ho. }
  assert (D : forall s E, entries h s E -> positive (shape_of s) -> forall i, stored h s i \/ ~ stored h s i).
  { clear. intros s E HE Hp i. rewrite (stored_sparse h s E i HE Hp).
    destruct (in_dec (list_eq_dec Z.eq_dec) i (map fst E)); auto. }
  split.
  - intros [H1 H2] i Hi. destruct (D s E HE Hp i) as [Hst|Hst]; [now apply H2|].
    rewrite (A s E HE Hp i Hi Hst). rewrite (A t F HF Hq i); [now rewrite Hu|now rewrite <- Hsh|]. now rewrite <- H1.
  - intros H. split.
    + intros i. split; intros Hi.
      * pose proof (B s E HE Hp i Hi) as Hbx. destruct (D t F HF Hq i) as [Hst|Hst]; [exact Hst|]. exfalso.
        apply (Ns i Hi). rewrite H by exact Hbx. rewrite Hu. apply (A t F HF Hq); [now rewrite <- Hsh|exact Hst].
      * pose proof (B t F HF Hq i Hi) as Hbx. rewrite <- Hsh in Hbx. destruct (D s E HE Hp i) as [Hst|Hst]; [exact Hst|]. exfalso.
        apply (Nt i Hi). rewrite <- H by exact Hbx. rewrite <- Hu. now apply (A s E HE Hp).
    + intros i Hi. apply H. eapply B; eassumption.
Qed.
Print Assumptions C40_sparse_partial.

(** Buffers. *)
Theorem C40_buffer_partial : forall h a b,
  valid h (SBuffer a) -> valid h (SBuffer b) ->
  exists r, equal h (SBuffer a) (SrcSto (SBuffer b)) = Ok r
    /\ (r = true <-> bsize a = bsize b
                     /\ forall k, 0 <= k < bsize a -> get_elem h (SBuffer a) [k] = get_elem h (SBuffer b) [k]).
Proof.
  intros h a b [f Ha] [g Hb].
  destruct (equal_ok h _ _ f g _ _ Ha Hb ltac:(intros []) ltac:(intros []) (elements_buffer h a f Ha) (elements_buffer h b g Hb))
    as (r & Er & Hr). exists r. split; [exact Er|]. rewrite Hr. clear Er Hr r.
  assert (Na : 0 <= bsize a) by (destruct Ha as (vs & (? & _ & _ & -> & _) & _); apply zlen_nonneg).
  assert (Nb : 0 <= bsize b) by (destruct Hb as (vs & (? & _ & _ & -> & _) & _); apply zlen_nonneg).
  assert (Ga : forall k, 0 <= k < bsize a -> get_elem h (SBuffer a) [k] = Ok (f [k])).
  { intros k Hk. apply (repr_get h (SBuffer a) f); [exact Ha|]. repeat constructor; lia. }
  assert (Gb : forall k, 0 <= k < bsize b -> get_elem h (SBuffer b) [k] = Ok (g [k])).
  { intros k Hk. apply (repr_get h (SBuffer b) g); [exact Hb|]. repeat constructor; lia. }
  assert (In_a : forall k x, In (KInt k, x) (map (fun x => (KInt x, f [x])) (zseq (bsize a))) <-> 0 <= k < bsize a /\ x = f [k]).
  { intros k x. rewrite in_map_iff. split.
    - intros (j & E & Hj). injection E as -> <-. apply In_zseq in Hj. auto.
    - intros [Hk ->]. exists k. split; [reflexivity|]. now apply In_zseq. }
  assert (In_b : forall k x, In (KInt k, x) (map (fun x => (KInt x, g [x])) (zseq (bsize b))) <-> 0 <= k < bsize b /\ x = g [k]).
  { intros k x. rewrite in_map_iff. split.
    - intros (j & E & Hj). injection E as -> <-. apply In_zseq in Hj. auto.
    - intros [Hk ->]. exists k. split; [reflexivity|]. now apply In_zseq. }
  split.
  - intros H.
    assert (K1 : forall k, 0 <= k < bsize a -> 0 <= k < bsize b /\ f [k] = g [k]).
    { intros k Hk. apply In_b. apply H. now apply In_a. }
    assert (K2 : forall k, 0 <= k < bsize b -> 0 <= k < bsize a).
    { intros k Hk. apply (In_a k (g [k])). apply H. now apply In_b. }
    split.
    + destruct (Z.eq_dec (bsize a) (bsize b)) as [E|E]; [exact E|exfalso].
      assert (bsize a < bsize b \/ bsize b < bsize a) as [L|L] by lia.
      * specialize (K2 (bsize a)). lia.
      * specialize (K1 (bsize b)). lia.
    + intros k Hk. destruct (K1 k Hk) as [Hk' E]. now rewrite Ga, Gb, E.
  - intros [E H] [[k|k] x].
    + rewrite In_a, In_b, E. split; intros [Hk ->]; (split; [exact Hk|]);
        specialize (H k ltac:(lia)); rewrite Ga, Gb in H by lia; congruence.
    + split; intros Hin; apply in_map_iff in Hin; destruct Hin as (j & Ej & _); discriminate.
Qed.
Print Assumptions C40_buffer_partial.

(** A Buffer equals an array of another class only if both have no elements: the
    keys of its elements are integers, those of the other classes tuples. *)
Theorem C40_buffer_other : forall h a t,
  valid h (SBuffer a) -> valid h t -> not_buffer t -> (is_sparse t -> positive (shape_of t)) ->
  exists r, equal h (SBuffer a) (SrcSto t) = Ok r
    /\ (r = true <-> bsize a = 0 /\ forall i, ~ stored h t i).
Proof.
  intros h a t [f Ha] [g Ht] Bt Pt.
  destruct (elements_stored h t g Ht Bt Pt) as (m & Em & Hm).
  destruct (equal_ok h _ t f g _ m Ha Ht ltac:(intros []) Pt (elements_buffer h a f Ha) Em) as (r & Er & Hr).
  exists r. split; [exact Er|]. rewrite Hr. clear Er Hr r.
  assert (Na : 0 <= bsize a) by (destruct Ha as (vs & (? & _ & _ & -> & _) & _); apply zlen_nonneg).
  assert (Ia : forall p, In p (map (fun x => (KInt x, f [x])) (zseq (bsize a))) -> exists k, 0 <= k < bsize a /\ fst p = KInt k).
  { intros p Hp. apply in_map_iff in Hp. destruct Hp as (k & <- & Hk). exists k. split; [now apply In_zseq|reflexivity]. }
  split.
  - intros H. split.
    + assert (D : bsize a = 0 \/ 0 < bsize a) by lia. destruct D as [D|D]; [exact D|exfalso].
      assert (I0 : In (KInt 0, f [0]) (map (fun x => (KInt x, f [x])) (zseq (bsize a)))).
      { apply in_map_iff. exists 0. split; [reflexivity|]. apply In_zseq. lia. }
      apply H, Hm in I0. destruct I0 as (i & x & E & _). discriminate E.
    + intros i Hi. destruct (stored_get h t g i Ht Hi Pt Bt) as (x & Hx).
      assert (I1 : In (KTup i, x) m) by (apply Hm; exists i, x; auto).
      apply H, Ia in I1. destruct I1 as (k & _ & E). discriminate E.
  - intros [Hz Hn] p. split; intros Hp.
    + apply Ia in Hp. destruct Hp as (k & Hk & _). lia.
    + apply Hm in Hp. destruct Hp as (i & x & _ & Hi & _). now contradiction (Hn i).
Qed.
Print Assumptions C40_buffer_other.

(** Comparing with a (rectangular) nested list, whose None stands for the
    unspecified value of s. *)
Theorem C40_list : forall h s v sh,
  valid h s -> not_buffer s -> (is_sparse s -> positive (shape_of s)) -> regular sh v ->
  exists b, equal h s (SrcSeq v) = Ok b
    /\ (b = true <->
          (forall i, stored h s i <-> in_box i sh)
          /\ forall i x, in_box i sh -> nested_at v i = Some x ->
               (x = VNone -> get_elem h s i = Ok (unspecified_of s))
               /\ (x <> VNone -> get_elem h s i = Ok x)).
Proof.
  intros h s v sh [f Hs] Bs Ps Hreg.
  destruct (C22_fromobject_elements CStrided h v sh (Some (unspecified_of s)) Hreg I ltac:(discriminate))
    as (t & h1 & E1 & E2 & E3 & E4 & V & E5). cbn [chosen] in *.
  destruct t; try contradiction. cbn [shape_of] in E3.
  assert (Hx : extends h h1).
  { assert (Hsrc : source_repr h (SrcSeq v) (nested_elem v)) by (exists sh; split; [exact Hreg|reflexivity]).
    pose proof (source_reads h (SrcSeq v) (nested_elem v) (Some (unspecified_of s)) Hsrc) as Hreads.
    destruct (build_class CStrided h (SrcSeq v) (fo_unspecified (Some (unspecified_of s))) _ (nested_elem v) I Hreads I)
      as (t' & h' & F1 & _ & _ & _ & F5 & _). cbn [fromobject] in E1. rewrite E1 in F1. injection F1 as <- <-. exact F5. }
  assert (Hs1 : repr h1 s f) by (eapply repr_extends; eassumption).
  assert (El : elements h1 s = elements h s).
  { destruct (elem_data_cases s h f Hs) as [H|[H|H]].
    - destruct s; try contradiction. now rewrite (elements_dense h1 _ f Hs1 I), (elements_dense h _ f Hs I).
    - destruct (sparse_entries h s f Hs H) as (E & HE & _). specialize (Ps H).
      rewrite (elements_sparse h s E HE Ps). apply elements_sparse; [|exact Ps]. eapply entries_extends; eassumption.
    - destruct s; try contradiction. now rewrite (elements_dense h1 _ f Hs1 I), (elements_dense h _ f Hs I). }
  assert (St : forall i, stored h1 s i <-> stored h s i) by (intros i; unfold stored; now rewrite El).
  assert (Gt : forall i x, stored h s i -> get_elem h1 s i = Ok x <-> get_elem h s i = Ok x).
  { intros i x Hst.
    assert (Hi : in_box i (shape_of s)).
    { destruct (elem_data_cases s h f Hs) as [H|[H|H]].
      - apply (stored_dense h s f i Hs); [destruct s; try contradiction; exact I|exact Hst].
      - destruct (sparse_entries h s f Hs H) as (E & HE & _). specialize (Ps H).
        apply (stored_sparse h s E i HE Ps) in Hst. apply in_map_iff in Hst. destruct Hst as (e & <- & He).
        pose proof (entries_ordered h s E HE) as [Ho _]. rewrite Forall_forall in Ho. now apply Ho.
      - apply (stored_dense h s f i Hs); [destruct s; try contradiction; exact I|exact Hst]. }
    now rewrite (repr_get h s f i Hs Hi), (repr_get h1 s f i Hs1 Hi). }
  destruct V as [g Hg].
  destruct (C40_characterised h1 s (SStrided s0)) as (b & Eb & Hb); auto; try exact I.
  { eexists; exact Hs1. } { eexists; exact Hg. } { intros []. }
  exists b. split.
  - unfold equal in *. rewrite El in Eb. destruct (elements h s); [|discriminate]. cbn [bind] in *.
    destruct s; try contradiction; cbn [fromobject] in E1; rewrite E1; exact Eb.
  - rewrite Hb. unfold same_stored.
    assert (SD : forall i, stored h1 (SStrided s0) i <-> in_box i sh).
    { intros i. rewrite (stored_dense h1 _ g i Hg I). cbn [shape_of]. now rewrite E3. }
    split.
    + intros [H1 H2]. split; [intros i; now rewrite <- SD, <- H1|].
      intros i x Hi Hn. destruct (E5 i Hi) as (x' & X1 & X2 & X3). rewrite Hn in X1. injection X1 as <-.
      assert (Hst : stored h1 s i) by (apply H1, SD, Hi). assert (Hst' : stored h s i) by now apply St.
      specialize (H2 i Hst). split; intros Hx'; apply Gt; auto; rewrite H2; auto.
    + intros [H1 H2]. split; [intros i; now rewrite SD, St, H1|].
      intros i Hst. apply St in Hst. assert (Hi : in_box i sh) by now apply H1.
      destruct (E5 i Hi) as (x & X1 & X2 & X3). destruct (H2 i x Hi X1) as [Y1 Y2].
      destruct (veqb x VNone) eqn:Ev.
      * apply veqb_eq in Ev. rewrite X2 by exact Ev. apply Gt; auto.
      * assert (Hne : x <> VNone) by (intros Q; rewrite Q in Ev; discriminate).
        rewrite X3 by exact Hne. apply Gt; auto.
Qed.
Print Assumptions C40_list.

(** Comparing a Buffer with a list: the same length and, None standing for the
    unspecified value, the same elements. *)
Theorem C40_buffer_list : forall h b v n,
  valid h (SBuffer b) -> regular [n] v ->
  exists r, equal h (SBuffer b) (SrcSeq v) = Ok r
    /\ (r = true <-> bsize b = n
          /\ forall k x, 0 <= k < n -> nested_at v [k] = Some x ->
               (x = VNone -> get_elem h (SBuffer b) [k] = Ok (unspecified_of (SBuffer b)))
               /\ (x <> VNone -> get_elem h (SBuffer b) [k] = Ok x)).
Proof.
  intros h b v n [f Hb] Hreg.
  destruct (C22_fromobject_elements CBuffer h v [n] (Some (unspecified_of (SBuffer b))) Hreg eq_refl ltac:(discriminate))
    as (t & h1 & E1 & E2 & E3 & E4 & V & E5). cbn [chosen] in *.
  destruct t as [a| | | | | | ]; try contradiction. cbn [shape_of] in E3. injection E3 as E3.
  assert (Hx : extends h h1).
  { assert (Hsrc : source_repr h (SrcSeq v) (nested_elem v)) by (exists [n]; split; [exact Hreg|reflexivity]).
    pose proof (source_reads h (SrcSeq v) (nested_elem v) (Some (unspecified_of (SBuffer b))) Hsrc) as Hreads.
    cbn [get_shape] in Hreads. rewrite (regular_shape [n] v Hreg) in Hreads.
    destruct (build_class CBuffer h (SrcSeq v) (fo_unspecified (Some (unspecified_of (SBuffer b)))) _ (nested_elem v) I Hreads eq_refl)
      as (t' & h' & F1 & _ & _ & _ & F5 & _). cbn [fromobject] in E1. rewrite E1 in F1. injection F1 as <- <-. exact F5. }
  assert (Hb1 : repr h1 (SBuffer b) f) by (eapply repr_extends; eassumption).
  destruct (C40_buffer_partial h1 b a (ex_intro _ f Hb1) V) as (r & Er & Hr). exists r. split.
  - unfold equal in *. rewrite (elements_buffer h b f Hb). rewrite (elements_buffer h1 b f Hb1) in Er. cbn [bind] in *.
    cbn [fromobject] in E1. rewrite E1. exact Er.
  - rewrite Hr, E3.
    assert (G : forall k, 0 <= k < bsize b -> get_elem h1 (SBuffer b) [k] = get_elem h (SBuffer b) [k]).
    { intros k Hk. assert (B : in_box [k] (shape_of (SBuffer b))) by (repeat constructor; lia).
      now rewrite (repr_get h1 _ f _ Hb1 B), (repr_get h _ f _ Hb B). }
    split; intros [Hn H]; (split; [exact Hn|]).
    + intros k x Hk Hx'. destruct (E5 [k]) as (x' & X1 & X2 & X3); [repeat constructor; lia|].
      rewrite Hx' in X1. injection X1 as <-. rewrite <- G, (H k) by lia. auto.
    + intros k Hk. destruct (E5 [k]) as (x & X1 & X2 & X3); [repeat constructor; lia|].
      destruct (H k x ltac:(lia) X1) as [Y1 Y2]. rewrite G by lia.
      destruct (veqb x VNone) eqn:Ev.
      * apply veqb_eq in Ev. rewrite X2 by exact Ev. auto.
      * assert (Hne : x <> VNone) by (intros Q; rewrite Q in Ev; discriminate). rewrite X3 by exact Hne. auto.
Qed.
Print Assumptions C40_buffer_list.

Example C40_buffer_list_case :
  ('(s, h) <- fromobject CBuffer [] (SrcSeq (VSeq [VInt 1; VNone])) (fo_unspecified (Some (VInt 0))) ;;
   a <- equal h s (SrcSeq (VSeq [VInt 1; VNone])) ;; b <- equal h s (SrcSeq (VSeq [VInt 1; VInt 0])) ;;
   c <- equal h s (SrcSeq (VSeq [VInt 1])) ;; d <- equal h s (SrcSeq (VSeq [VInt 2; VInt 0])) ;; Ok [a; b; c; d])
  = Ok [true; true; false; false].
Proof. vm_compute. reflexivity. Qed.

(** equal() is symmetric. *)
Theorem C40_symmetric : forall h s t b,
  equal h s (SrcSto t) = Ok b <-> equal h t (SrcSto s) = Ok b.
Proof.
  intros h s t b. unfold equal. cbn [bind].
  destruct (elements h s) as [l|]; destruct (elements h t) as [m|]; cbn [bind]; try (split; discriminate).
  unfold dict_eqb. now rewrite andb_comm.
Qed.
Print Assumptions C40_symmetric.

(** The property fails: a COO and a Strided of the same list, with the same
    element everywhere, are not equal(); neither are a Buffer and a Strided; and
    two COO arrays with different elements are equal(). *)
Definition mixed_pair (c c' : cls) (v : pyval) (u u' : option pyval) : res (storage * storage * heap) :=
  '(s, h) <- fromobject c [] (SrcSeq v) (fo_unspecified u) ;;
  '(t, h1) <- fromobject c' h (SrcSeq v) (fo_unspecified u') ;;
  Ok (s, t, h1).

Lemma mixed_pair_valid c c' v sh u u' : regular sh v -> class_rank c sh -> class_rank c' sh -> c <> CCSR -> c' <> CCSR -> c' <> CDM ->
  exists s t h, mixed_pair c c' v u u' = Ok (s, t, h) /\ valid h s /\ valid h t /\ shape_of s = sh /\ shape_of t = sh.
Proof.
  intros Hreg Hc Hc' N N' D. unfold mixed_pair.
  destruct (C22_fromobject_elements c [] v sh u Hreg Hc ltac:(congruence)) as (s & h & A1 & A2 & A3 & _ & A5 & _).
  destruct (C22_fromobject_elements c' h v sh u' Hreg Hc' ltac:(congruence)) as (t & h1 & B1 & B2 & B3 & _ & B5 & _).
  rewrite A1. cbn [bind]. rewrite B1. cbn [bind]. exists s, t, h1. split; [reflexivity|].
  split; [|auto]. destruct A5 as [f Hf]. exists f. eapply repr_extends; [|exact Hf].
  assert (Hsrc : source_repr h (SrcSeq v) (nested_elem v)) by (exists sh; split; [exact Hreg|reflexivity]).
  pose proof (source_reads h (SrcSeq v) (nested_elem v) u' Hsrc) as Hreads.
  cbn [get_shape] in Hreads. rewrite (regular_shape sh v Hreg) in Hreads.
  destruct (build_class c' h (SrcSeq v) (fo_unspecified u') sh (nested_elem v) I Hreads)
    as (t' & h' & F1 & _ & _ & _ & F5 & _).
  - destruct c'; cbn in *; auto; congruence.
  - assert (E : fromobject c' h (SrcSeq v) (fo_unspecified u') = flat_fromobject c' h (SrcSeq v) (fo_unspecified u')).
    { destruct c'; try reflexivity; congruence. }
    rewrite E, F1 in B1. injection B1 as <- <-. exact F5.
Qed.

Definition list_105 : pyval := VSeq [VInt 1; VInt 0; VInt 5].

Theorem C40_equal_refuted :
  (exists s t h, mixed_pair CCOO CStrided list_105 (Some (VInt 0)) None = Ok (s, t, h)
     /\ valid h s /\ valid h t /\ shape_of s = shape_of t
     /\ (forall i, in_box i (shape_of s) -> get_elem h s i = get_elem h t i)
     /\ equal h s (SrcSto t) = Ok false)
  /\ (exists s t h, mixed_pair CBuffer CStrided list_105 None None = Ok (s, t, h)
     /\ valid h s /\ valid h t /\ shape_of s = shape_of t
     /\ (forall i, in_box i (shape_of s) -> get_elem h s i = get_elem h t i)
     /\ equal h s (SrcSto t) = Ok false)
  /\ (exists s t h, mixed_pair CCOO CCOO (VSeq [VInt 1; VNone; VInt 5]) (Some (VInt 0)) (Some (VInt 7)) = Ok (s, t, h)
     /\ valid h s /\ valid h t /\ shape_of s = shape_of t
     /\ get_elem h s [1] = Ok (VInt 0) /\ get_elem h t [1] = Ok (VInt 7)
     /\ equal h s (SrcSto t) = Ok true).
Proof.
  assert (B : forall i, in_box i [3] -> i = [0] \/ i = [1] \/ i = [2]).
  { intros i H. inversion H as [|x ? i' ? Hx Hi]; subst. inversion Hi; subst.
    assert (x = 0 \/ x = 1 \/ x = 2) as [->|[->| ->]] by lia; auto. }
  assert (R : regular [3] list_105) by repeat constructor.
  assert (R' : regular [3] (VSeq [VInt 1; VNone; VInt 5])) by repeat constructor.
  split; [|split].
  - destruct (mixed_pair_valid CCOO CStrided list_105 [3] (Some (VInt 0)) None R)
      as (s & t & h & E & V1 & V2 & S1 & S2); try discriminate; try exact I.
    exists s, t, h. split; [exact E|]. split; [exact V1|]. split; [exact V2|]. split; [congruence|].
    vm_compute in E. injection E as <- <- <-. split; [|vm_compute; reflexivity].
    intros i Hi. cbn [shape_of] in Hi. destruct (B i Hi) as [->|[->| ->]]; vm_compute; reflexivity.
  - destruct (mixed_pair_valid CBuffer CStrided list_105 [3] None None R)
      as (s & t & h & E & V1 & V2 & S1 & S2); try discriminate; try exact I; try reflexivity.
    exists s, t, h. split; [exact E|]. split; [exact V1|]. split; [exact V2|]. split; [congruence|].
    vm_compute in E. injection E as <- <- <-. split; [|vm_compute; reflexivity].
    intros i Hi. cbn [shape_of] in Hi. destruct (B i Hi) as [->|[->| ->]]; vm_compute; reflexivity.
  - destruct (mixed_pair_valid CCOO CCOO (VSeq [VInt 1; VNone; VInt 5]) [3] (Some (VInt 0)) (Some (VInt 7)) R')
      as (s & t & h & E & V1 & V2 & S1 & S2); try discriminate.
    exists s, t, h. split; [exact E|]. split; [exact V1|]. split; [exact V2|]. split; [congruence|].
    vm_compute in E. injection E as <- <- <-. repeat split; vm_compute; reflexivity.
Qed.
Print Assumptions C40_equal_refuted.

(** A COO against a FlatCOO and against a CSR, a Strided view against a list. *)
Example C40_case :
  ('(s, h) <- fromobject CCOO [] (SrcSeq nested_diag) (fo_unspecified (Some (VInt 0))) ;;
   '(t, h1) <- as_storage CFlatCOO h s None ;; '(w, h2) <- as_storage CCSR h1 s None ;;
   '(d, h3) <- as_storage CStrided h2 s None ;;
   '(v, h4) <- getitems h3 d [XItem (ISlice (Sl None None (Some (-1))))] ;;
   a <- equal h4 s (SrcSto t) ;; b <- equal h4 w (SrcSto t) ;; c <- equal h4 d (SrcSto v) ;;
   e <- equal h4 v (SrcSeq (VSeq [VSeq [VInt 7; VNone]; VSeq [VInt 0; VInt 5]])) ;; Ok (a, b, c, e))
  = Ok (true, true, false, true).
Proof. vm_compute. reflexivity. Qed.

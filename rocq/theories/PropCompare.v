(** C106: comparing arrays of any classes through a common class; equal() as an
    equivalence.

    [as_storage c h s u] is [s.as_C(unspecified=u)], [storage_eq] is [==] and
    [equal h s (SrcSto t)] is [s.equal(t)]. *)
From Coq Require Import Sorting.Sorted Permutation ZifyBool.
From Verif Require Import Py SliceTools Basics Storage Spec SliceFacts IndexFacts
  CompressFacts ReduceFacts SolverFacts SolveFacts Repr ReprFacts ViewFacts BuildFacts SparseFacts
  ConvFacts FromFacts DMFacts ReadFacts MapFacts ChainFacts WriteFacts EffectFacts EqFacts PropRead PropWrite PropEq.

(** * Specification *)

(** The element of s at i when [u] stands for what is not specified. *)
Definition seen (h : heap) (s : storage) (u : pyval) (i : list Z) (y : pyval) : Prop :=
  exists x, get_elem h s i = Ok x /\ ((x = unspecified_of s /\ y = u) \/ (x <> unspecified_of s /\ y = x)).
(** The same shape and, with [u] for what is not specified, the same elements. *)
Definition agree (h : heap) (s t : storage) (u : pyval) : Prop :=
  shape_of s = shape_of t /\ forall i, in_box i (shape_of s) -> exists y, seen h s u i y /\ seen h t u i y.
(** CSR needs an element that is specified. *)
Definition room (c : cls) (h : heap) (s : storage) (u : pyval) : Prop :=
  class_rank c (shape_of s) /\ (c = CCSR -> some_element_stays h s u).

Lemma seen_conv h s f u i y : repr h s f -> in_box i (shape_of s) ->
  (seen h s u i y <-> y = conv_value (unspecified_of s) u (f i)).
Proof.
  intros Hr Hi. unfold seen, conv_value. rewrite (repr_get h s f i Hr Hi).
  destruct (veqb (f i) (unspecified_of s)) eqn:E.
  - apply veqb_eq in E. split.
    + intros (x & X & [[_ ->]|[N _]]); [reflexivity|]. injection X as <-. contradiction.
    + intros ->. exists (f i). auto.
  - assert (N : f i <> unspecified_of s) by (intros Q; rewrite Q, veqb_refl in E; discriminate). split.
    + intros (x & X & [[Q _]|[_ ->]]); injection X as <-; [contradiction|reflexivity].
    + intros ->. exists (f i). auto.
Qed.
Lemma agree_conv h s t f g u : repr h s f -> repr h t g ->
  (agree h s t u <-> shape_of s = shape_of t
     /\ forall i, in_box i (shape_of s) -> conv_value (unspecified_of s) u (f i) = conv_value (unspecified_of t) u (g i)).
Proof.
  intros Hs Ht. unfold agree. split; intros [E H]; (split; [exact E|]); intros i Hi; specialize (H i Hi).
  - destruct H as (y & H1 & H2). apply (seen_conv h s f u i y Hs Hi) in H1. rewrite E in Hi.
    apply (seen_conv h t g u i y Ht Hi) in H2. congruence.
  - eexists. split; [now apply (seen_conv h s f)|]. rewrite H. rewrite E in Hi. now apply (seen_conv h t g).
Qed.

(** * Conversions build arrays in normal form *)
Lemma room_ok c h s f u : repr h s f -> c <> CDM -> room c h s u ->
  class_ok c (shape_of s) u (fun i => conv_value (unspecified_of s) u (f i)).
Proof.
  intros Hr Hc [H1 H2]. destruct c; cbn [class_rank class_ok] in *; auto; try congruence.
  split; [exact H1|]. exact (stays_specified h s f u Hr (H2 eq_refl)).
Qed.
Lemma flat_as c h s u : c <> CDM -> as_storage c h s u = flat_fromobject c h (SrcSto s) (fo_unspecified u).
Proof. destruct c; try reflexivity; congruence. Qed.
Lemma built_normal c h s f u : repr h s f -> shape_of s <> [] -> c <> CDM ->
  let u' := chosen (unspecified_of s) u in
  room c h s u' -> (u = None -> positive (shape_of s)) ->
  (u = None -> normal h s) ->
  exists a h', as_storage c h s u = Ok (a, h') /\ is_class c a /\ shape_of a = shape_of s /\ unspecified_of a = u'
    /\ extends h h' /\ repr h' a (fun i => conv_value (unspecified_of s) u' (f i)) /\ normal h' a.
Proof.
  intros Hr Hne Hc u' Hroom Hp Hn. pose proof (room_ok c h s f u' Hr Hc Hroom) as Hok. rewrite (flat_as c h s u Hc).
  destruct (fromobject_ok c h (SrcSto s) f u) as (a & h' & E1 & E2 & E3 & E4 & E5 & E6 & E7 & E8).
  { split; assumption. }
  { destruct u; exact Hok. }
  { exact Hp. }
  exists a, h'. split; [exact E1|]. split; [exact E2|]. split; [exact E3|]. split; [destruct u; exact E4|]. split; [exact E5|].
  split; [destruct u; exact E6|].
  destruct u as [u|].
  - cbn [chosen] in u'. assert (D : no_shortcut c (SrcSto s) (fo_unspecified (Some u))) by exact I.
    destruct (E7 D) as [_ He]. cbn [new_unspec get_shape] in *.
    assert (Q : forall u1 u2 sh f, u1 = u2 -> specified_only u1 (entries_of sh u2 f)) by (intros; subst; apply entries_of_specified).
    destruct a; cbn [normal]; try exact I.
    + destruct c; try contradiction. cbn [flat_fromobject] in E1.
      assert (Eb : strided_fromobject h (SrcSto s) (fo_unspecified (Some u))
        = strided_build (fo_get h (SrcSto s) (fo_unspecified (Some u))) (fo_get_shape (SrcSto s) (fo_unspecified (Some u)))
             (get_unspecified (SrcSto s)) (fo_get_unspec (SrcSto s) (fo_unspecified (Some u))) h).
      { unfold strided_fromobject. destruct s; reflexivity. }
      rewrite Eb in E1. destruct (source_reads h (SrcSto s) f (Some u)) as (R1 & R2 & R3); [split; assumption|].
      rewrite R1 in E1. destruct (strided_build _ _ _ _ _) as [[t0 h0]|] eqn:Es; [|discriminate].
      cbn [bind] in E1. injection E1 as <- <-. now apply (strided_build_contiguous _ f _ _ _ _ _ _ R2 R3) in Es.
    + eexists. split; [exact (He I)|]. apply Q. exact E4.
    + eexists. split; [exact (He I)|]. apply Q. exact E4.
    + eexists. split; [exact (He I)|]. apply Q. exact E4.
  - apply (conversion_normal c h s f a h' Hr (Hn eq_refl)); auto.
    destruct Hroom as [R1 R2]. destruct c; cbn [class_rank class_ok] in *; auto; try congruence. split; [exact R1|].
    destruct (R2 eq_refl) as (i & x & Hi & Hx & N & _). exists i. split; [exact Hi|].
    rewrite (repr_get h s f i Hr Hi) in Hx. congruence.
Qed.

Lemma compared c h s t u : c <> CDM -> valid h s -> valid h t -> shape_of s <> [] -> shape_of t <> [] ->
  let us := chosen (unspecified_of s) u in
  let ut := chosen (unspecified_of t) u in
  room c h s us -> room c h t ut ->
  (u = None -> positive (shape_of s) /\ positive (shape_of t) /\ normal h s /\ normal h t) ->
  exists a h1 b h2, as_storage c h s u = Ok (a, h1) /\ as_storage c h1 t u = Ok (b, h2)
    /\ exists r, storage_eq h2 a b = Ok r
       /\ (r = true <-> us = ut /\ shape_of s = shape_of t
             /\ forall i y, in_box i (shape_of s) -> (seen h s us i y <-> seen h t ut i y)).
Proof.
  intros Hc [f Hs] [g Ht] Ns Nt us ut Rs Rt Hd.
  destruct (built_normal c h s f u Hs Ns Hc) as (a & h1 & A1 & A2 & A3 & A4 & A5 & A6 & A7);
    [exact Rs|intros E; apply (Hd E)|intros E; apply (Hd E)|].
  assert (Ht1 : repr h1 t g) by (eapply repr_extends; eassumption).
  destruct (built_normal c h1 t g u Ht1 Nt Hc) as (b & h2 & B1 & B2 & B3 & B4 & B5 & B6 & B7).
  { destruct Rt as [R1 R2]. split; [exact R1|]. intros E. destruct (R2 E) as (i & x & Hi & Hx & N). exists i, x.
    split; [exact Hi|]. split; [|exact N]. rewrite (repr_get h t g i Ht Hi) in Hx. now rewrite (repr_get h1 t g i Ht1 Hi). }
  { intros E. apply (Hd E). }
  { intros E. apply (normal_extends h); [exact A5|apply (Hd E)]. }
  exists a, h1, b, h2. split; [exact A1|]. split; [exact B1|].
  assert (A6' : repr h2 a (fun i => conv_value (unspecified_of s) us (f i))) by (eapply repr_extends; eassumption).
  assert (A7' : normal h2 a) by (eapply normal_extends; eassumption).
  assert (Nn : nonneg (shape_of a)).
  { rewrite A3. destruct (source_reads h (SrcSto s) f None) as (_ & N & _); [split; assumption|]. exact N. }
  destruct (C39_total h2 a b) as [r Er]; [now exists (fun i => conv_value (unspecified_of s) us (f i))|eexists; exact B6|].
  exists r. split; [exact Er|].
  pose proof (normal_exact h2 a b _ _ A6' B6 A7' B7) as X.
  assert (SC : same_class a b) by (destruct c, a, b; try contradiction; try exact I; congruence).
  specialize (X SC ltac:(destruct c, a; try contradiction; try exact I; congruence) Nn).
  rewrite Er in X. assert (Y : r = true <-> Ok r = Ok true) by (split; congruence). rewrite Y, X, A3, B3, A4, B4.
  assert (GA : forall i, in_box i (shape_of s) -> get_elem h2 a i = Ok (conv_value (unspecified_of s) us (f i))).
  { intros i Hi. apply (repr_get h2 a _ i A6'). now rewrite A3. }
  assert (GB : forall i, in_box i (shape_of t) -> get_elem h2 b i = Ok (conv_value (unspecified_of t) ut (g i))).
  { intros i Hi. apply (repr_get h2 b _ i B6). now rewrite B3. }
  fold us ut. split.
  - intros (E1 & E2 & E3). split; [exact E2|]. split; [exact E1|]. intros i y Hi.
    rewrite (seen_conv h s f us i y Hs Hi). pose proof (E3 i Hi) as E. rewrite (GA i Hi) in E. rewrite E1 in Hi.
    rewrite (GB i Hi) in E. injection E as E. rewrite (seen_conv h t g ut i y Ht Hi), E. reflexivity.
  - intros (E1 & E2 & E3). split; [exact E2|]. split; [exact E1|]. intros i Hi.
    pose proof (E3 i (conv_value (unspecified_of s) us (f i)) Hi) as E. rewrite (GA i Hi).
    rewrite (seen_conv h s f us i _ Hs Hi) in E. rewrite E2 in Hi. rewrite (GB i Hi).
    rewrite (seen_conv h t g ut i _ Ht Hi) in E. f_equal. now apply E.
Qed.

(** * C106 *)

(** Two arrays of any classes, views included, converted to one class with a value
    for what is not specified, are == exactly if the arrays agree. *)
Theorem C106_common_class : forall c h s t u,
  c <> CDM -> valid h s -> valid h t -> shape_of s <> [] -> shape_of t <> [] -> room c h s u -> room c h t u ->
  exists a h1 b h2, as_storage c h s (Some u) = Ok (a, h1) /\ as_storage c h1 t (Some u) = Ok (b, h2)
    /\ exists r, storage_eq h2 a b = Ok r /\ (r = true <-> agree h s t u).
Proof.
  intros c h s t u Hc Vs Vt Ns Nt Rs Rt.
  destruct (compared c h s t (Some u) Hc Vs Vt Ns Nt Rs Rt ltac:(discriminate)) as (a & h1 & b & h2 & A & B & r & R & X).
  exists a, h1, b, h2. split; [exact A|]. split; [exact B|]. exists r. split; [exact R|]. rewrite X. cbn [chosen].
  destruct Vs as [f Hs], Vt as [g Ht]. rewrite (agree_conv h s t f g u Hs Ht). split.
  - intros (_ & E1 & E2). split; [exact E1|]. intros i Hi.
    specialize (E2 i (conv_value (unspecified_of s) u (f i)) Hi). rewrite (seen_conv h s f u i _ Hs Hi) in E2.
    rewrite E1 in Hi. rewrite (seen_conv h t g u i _ Ht Hi) in E2. now apply E2.
  - intros [E1 E2]. split; [reflexivity|]. split; [exact E1|]. intros i y Hi. rewrite (seen_conv h s f u i _ Hs Hi), (E2 i Hi).
    rewrite E1 in Hi. now rewrite (seen_conv h t g u i _ Ht Hi).
Qed.
Print Assumptions C106_common_class.

(** Without the argument each array keeps its unspecified value; then it is exact
    for arrays as fromobject and the conversions build them. *)
Theorem C106_own_value_partial : forall c h s t,
  c <> CDM -> valid h s -> valid h t -> shape_of s <> [] -> shape_of t <> [] ->
  positive (shape_of s) -> positive (shape_of t) -> as_built h s -> as_built h t ->
  room c h s (unspecified_of s) -> room c h t (unspecified_of t) ->
  exists a h1 b h2, as_storage c h s None = Ok (a, h1) /\ as_storage c h1 t None = Ok (b, h2)
    /\ exists r, storage_eq h2 a b = Ok r
       /\ (r = true <-> shape_of s = shape_of t /\ unspecified_of s = unspecified_of t
             /\ forall i, in_box i (shape_of s) -> get_elem h s i = get_elem h t i).
Proof.
  intros c h s t Hc Vs Vt Ns Nt Ps Pt As At Rs Rt. pose proof Vs as [f Hs]. pose proof Vt as [g Ht].
  destruct (compared c h s t None Hc Vs Vt Ns Nt Rs Rt) as (a & h1 & b & h2 & A & B & r & R & X).
  { intros _. repeat split; auto; eapply as_built_normal; eassumption. }
  exists a, h1, b, h2. split; [exact A|]. split; [exact B|]. exists r. split; [exact R|]. rewrite X. cbn [chosen].
  assert (C : forall u x, conv_value u u x = x) by (intros; apply conv_value_id). split.
  - intros (E1 & E2 & E3). split; [exact E2|]. split; [exact E1|]. intros i Hi.
    specialize (E3 i (f i) Hi). rewrite (seen_conv h s f _ i _ Hs Hi), C in E3. rewrite (repr_get h s f i Hs Hi). rewrite E2 in Hi.
    rewrite (seen_conv h t g _ i _ Ht Hi), C in E3. rewrite (repr_get h t g i Ht Hi). f_equal. now apply E3.
  - intros (E1 & E2 & E3). split; [exact E2|]. split; [exact E1|]. intros i y Hi. pose proof (E3 i Hi) as E.
    rewrite (repr_get h s f i Hs Hi) in E. rewrite (seen_conv h s f _ i _ Hs Hi), C. rewrite E1 in Hi.
    rewrite (repr_get h t g i Ht Hi) in E. rewrite (seen_conv h t g _ i _ Ht Hi), C. injection E as ->. reflexivity.
Qed.
Print Assumptions C106_own_value_partial.

(** equal() never fails and is an equivalence (C40 has symmetry); unless strides
    are negative, == arrays are equal(). *)
Definition readable (s : storage) : Prop := is_sparse s -> positive (shape_of s).
Theorem C106_equivalence : forall h s t r,
  valid h s -> valid h t -> valid h r -> readable s -> readable t -> readable r ->
  equal h s (SrcSto s) = Ok true
  /\ (exists b, equal h s (SrcSto t) = Ok b)
  /\ (equal h s (SrcSto t) = Ok true -> equal h t (SrcSto s) = Ok true)
  /\ (equal h s (SrcSto t) = Ok true -> equal h t (SrcSto r) = Ok true -> equal h s (SrcSto r) = Ok true).
Proof.
  intros h s t r [f Hs] [g Ht] [k Hr] Ps Pt Pr.
  destruct (elements_ok h s f Hs Ps) as (l & El & _). destruct (elements_ok h t g Ht Pt) as (m & Em & _).
  destruct (elements_ok h r k Hr Pr) as (n & En & _).
  destruct (equal_ok h s s f f l l Hs Hs Ps Ps El El) as (b1 & E1 & H1).
  destruct (equal_ok h s t f g l m Hs Ht Ps Pt El Em) as (b2 & E2 & H2).
  destruct (equal_ok h t r g k m n Ht Hr Pt Pr Em En) as (b3 & E3 & H3).
  destruct (equal_ok h s r f k l n Hs Hr Ps Pr El En) as (b4 & E4 & H4).
  split; [rewrite E1; f_equal; apply H1; reflexivity|]. split; [now exists b2|].
  split; [apply C40_symmetric|]. rewrite E2, E3, E4. intros X Y. injection X as ->. injection Y as ->. f_equal. apply H4.
  intros p. rewrite (proj1 H2 eq_refl p). now apply H3.
Qed.
Print Assumptions C106_equivalence.

Lemma eq_same_elements h s t : valid h s -> valid h t -> forward s -> readable s ->
  storage_eq h s t = Ok true -> elements h s = elements h t /\ readable t.
Proof.
  intros Vs Vt Hf Ps E. destruct (C39_equality_partial h s t Vs Vt Hf E) as (Hc & Hsh & Hu & Hg).
  assert (Pt : readable t).
  { intros Hsp. rewrite <- Hsh. apply Ps. destruct s, t; try contradiction; exact I. }
  split; [|exact Pt]. pose proof Vs as [f Hs]. pose proof Vt as [g Ht].
  destruct (elem_data_cases s h f Hs) as [H|[H|H]].
  - destruct s as [b|s'| | | | |]; try contradiction; destruct t as [b'|t'| | | | |]; try contradiction.
    + rewrite (elements_buffer h b f Hs), (elements_buffer h b' g Ht). cbn [shape_of] in Hsh. injection Hsh as Hsh. rewrite <- Hsh.
      f_equal. apply map_ext_in. intros x Hx. f_equal. apply In_zseq in Hx.
      assert (B1 : in_box [x] (shape_of (SBuffer b))) by (repeat constructor; lia).
      assert (B2 : in_box [x] (shape_of (SBuffer b'))) by (cbn [shape_of]; rewrite <- Hsh; exact B1).
      specialize (Hg [x] B1). rewrite (repr_get h _ f [x] Hs B1), (repr_get h _ g [x] Ht B2) in Hg. congruence.
    + rewrite (elements_dense h _ f Hs I), (elements_dense h _ g Ht I), <- Hsh. f_equal. apply map_ext_in. intros i Hi.
      apply In_cart in Hi. specialize (Hg i Hi). rewrite (repr_get h _ f i Hs Hi) in Hg. rewrite Hsh in Hi.
      rewrite (repr_get h _ g i Ht Hi) in Hg. congruence.
  - assert (H' : is_sparse t) by (destruct s, t; try contradiction; exact I).
    apply (C39_sparse_exact h s t Vs Vt H Hc (Ps H) (Pt H')). exact E.
  - assert (H' : is_dm t) by (destruct s, t; try contradiction; exact I).
    rewrite (elements_dense h s f Hs), (elements_dense h t g Ht); [|destruct t; try contradiction; exact I|destruct s; try contradiction; exact I].
    rewrite <- Hsh. f_equal. apply map_ext_in. intros i Hi.
    apply In_cart in Hi. specialize (Hg i Hi). rewrite (repr_get h _ f i Hs Hi) in Hg. rewrite Hsh in Hi.
    rewrite (repr_get h _ g i Ht Hi) in Hg. congruence.
Qed.
Theorem C106_eq_implies_equal : forall h s t,
  valid h s -> valid h t -> forward s -> readable s ->
  storage_eq h s t = Ok true -> equal h s (SrcSto t) = Ok true.
Proof.
  intros h s t Vs Vt Hf Ps E. destruct (eq_same_elements h s t Vs Vt Hf Ps E) as [El Pt].
  destruct Vs as [f Hs], Vt as [g Ht]. destruct (elements_ok h s f Hs Ps) as (l & L & _).
  destruct (equal_ok h s t f g l l Hs Ht Ps Pt L (eq_trans (eq_sym El) L)) as (b & -> & H). f_equal. now apply H.
Qed.
Print Assumptions C106_eq_implies_equal.

(** Without the argument a view keeps its strides: with s = [1, 2, 3][::-1] and
    t = [3, 2, 1], all elements agree but s.as_Strided() != t.as_Strided(); with
    unspecified=None they are ==, and so are s.as_COO() and t.as_COO().  With
    negative strides == arrays need not be equal(). *)
Definition reversed_and_list : res (storage * storage * heap) :=
  '(a, h) <- fromobject CStrided [] (SrcSeq list_3) fo_default ;;
  '(s, h1) <- getitems h a [XItem (ISlice (Sl None None (Some (-1))))] ;;
  '(t, h2) <- fromobject CStrided h1 (SrcSeq (VSeq [VInt 3; VInt 2; VInt 1])) fo_default ;; Ok (s, t, h2).
Definition through (c : cls) (h : heap) (s t : storage) (u : option pyval) : res bool :=
  '(a, h1) <- as_storage c h s u ;; '(b, h2) <- as_storage c h1 t u ;; storage_eq h2 a b.
Theorem C106_refuted : exists s t h, reversed_and_list = Ok (s, t, h)
  /\ shape_of s = shape_of t /\ unspecified_of s = unspecified_of t
  /\ (forall i, In i [[0]; [1]; [2]] -> get_elem h s i = get_elem h t i)
  /\ through CStrided h s t None = Ok false
  /\ through CStrided h s t (Some VNone) = Ok true /\ through CCOO h s t None = Ok true.
Proof.
  eexists _, _, _. split; [vm_compute; reflexivity|]. split; [reflexivity|]. split; [reflexivity|].
  split; [intros i [<-|[<-|[<-|[]]]]; vm_compute; reflexivity|]. repeat split; vm_compute; reflexivity.
Qed.
Print Assumptions C106_refuted.
Theorem C106_implied_refuted : exists s t h, reversed_pair = Ok (s, t, h)
  /\ storage_eq h s t = Ok true /\ equal h s (SrcSto t) = Ok false.
Proof. eexists _, _, _. split; [vm_compute; reflexivity|]. split; vm_compute; reflexivity. Qed.
Print Assumptions C106_implied_refuted.

(** A DM array over COO and a reversed Strided view of the same elements. *)
Example C106_case :
  ('(a, h) <- fromobject CStrided [] (SrcSeq nested_2x2) fo_default ;;
   '(s, h1) <- getitems h a [XTuple [ISlice (Sl None None (Some (-1))); INone]] ;;
   '(b, h2) <- fromobject CStrided h1 (SrcSeq (VSeq [VSeq [VInt 3; VInt 4]; VSeq [VInt 1; VInt 2]])) fo_default ;;
   '(t, h3) <- as_DM h2 b None None CCOO None ;;
   x <- through CFlatCOO h3 s t (Some (VInt 7)) ;; y <- equal h3 s (SrcSto t) ;; Ok (x, y))
  = Ok (true, true).
Proof. vm_compute. reflexivity. Qed.

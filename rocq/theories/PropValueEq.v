(** C89, continued: [==] and equal() against nested lists when [==] of elements is
    not identity.  Of the relation [eqv] it is assumed that it compares integers as
    integers and that None is equal to itself. *)
From Coq Require Import Sorting.Sorted Permutation ZifyBool.
From Verif Require Import Py SliceTools Basics Storage Spec SliceFacts IndexFacts
  CompressFacts ReduceFacts SolverFacts SolveFacts Repr ReprFacts ViewFacts BuildFacts SparseFacts
  ConvFacts FromFacts DMFacts ReadFacts MapFacts ChainFacts WriteFacts EffectFacts EqFacts PropRead PropWrite PropEq Values ValueFacts PropValues.

Definition ints_and_None (eqv : pyval -> pyval -> bool) : Prop :=
  (forall a b, eqv (VInt a) (VInt b) = true <-> a = b) /\ eqv VNone VNone = true.

Lemma vlist_eq_veqb l : forall m, vlist_eq veqb l m = vlist_eqb l m.
Proof.
  unfold vlist_eqb. induction l as [|x l IH]; intros [|y m]; try reflexivity.
Qed.
Lemma buf_eq_veqb h a b : buf_eq_eq veqb h a b = buf_eq h a b.
Proof.
  unfold buf_eq_eq, buf_eq. destruct (cell h (baddr a)); [|reflexivity]. destruct (cell h (baddr b)); [|reflexivity].
  cbn [bind]. now rewrite vlist_eq_veqb.
Qed.
Lemma strided_eq_veqb h a b : strided_eq_eq veqb h a b = strided_eq h a b.
Proof. unfold strided_eq_eq, strided_eq. now rewrite buf_eq_veqb. Qed.
Lemma storage_eq_veqb : forall s t h, storage_eq_eq veqb h s t = storage_eq h s t.
Proof.
  induction s; intros t h; destruct t; cbn [storage_eq_eq storage_eq]; rewrite ?buf_eq_veqb, ?strided_eq_veqb, ?IHs; reflexivity.
Qed.

(** With the equality of Storage.v these are the functions of Storage.v. *)
Theorem C89_same_comparisons : forall h s t other,
  storage_eq_eq veqb h s t = storage_eq h s t /\ equal_src_eq veqb h s other = equal h s other.
Proof.
  intros h s t other. split; [apply storage_eq_veqb|]. unfold equal_src_eq, equal.
  destruct (elements h s) as [l|]; [|reflexivity]. cbn [bind].
  assert (E : forall r : res (storage * heap), ('(o, h1) <- r ;; d2 <- elements h1 o ;; Ok (dict_eq veqb l d2)) =
                      ('(o, h1) <- r ;; d2 <- elements h1 o ;; Ok (dict_eqb l d2))).
  { intros [[o h1]|]; [|reflexivity]. cbn [bind]. destruct (elements h1 o); [|reflexivity]. cbn [bind]. now rewrite dict_eq_veqb. }
  rewrite E. destruct other; reflexivity.
Qed.
Print Assumptions C89_same_comparisons.

Section Eq.
Variable eqv : pyval -> pyval -> bool.
Definition alike (x y : pyval) : Prop := eqv x y = true.

Lemma vlist_eq_iff l : forall m, vlist_eq eqv l m = true <-> Forall2 alike l m.
Proof.
  induction l as [|x l IH]; intros [|y m]; cbn [vlist_eq]; try (split; [discriminate|intros H; inversion H]).
  - split; [constructor|reflexivity].
  - rewrite andb_true_iff, IH. split; [intros [H1 H2]; now constructor|]. intros H. inversion H; subst. auto.
Qed.

Lemma alike_len l m : Forall2 alike l m -> length l = length m.
Proof. intros H. induction H; cbn; congruence. Qed.

Lemma buf_eq_ok_eq h a b vs ws : holds h a vs -> holds h b ws ->
  exists r, buf_eq_eq eqv h a b = Ok r /\ (r = true <-> Forall2 alike vs ws /\ alike (bunspec a) (bunspec b)).
Proof.
  intros Ha Hb. pose proof Ha as (l & Hl & _ & Hs & _). pose proof Hb as (m & Hm & _ & Ht & _).
  unfold buf_eq_eq. rewrite (cell_ok _ _ _ Hl), (cell_ok _ _ _ Hm). cbn [bind].
  rewrite (holds_slice h a vs l Ha Hl), (holds_slice h b ws m Hb Hm).
  eexists. split; [reflexivity|]. rewrite !andb_true_iff, vlist_eq_iff, Z.eqb_eq, Hs, Ht. unfold alike at 2. split.
  - tauto.
  - intros [H E]. split; [|exact E]. split; [|exact H]. unfold zlen. now rewrite (alike_len _ _ H).
Qed.

Lemma strided_eq_ok_eq h a b vs ws : holds h (sdata a) vs -> holds h (sdata b) ws ->
  exists r, strided_eq_eq eqv h a b = Ok r
    /\ (r = true <-> sshape a = sshape b /\ sstrides a = sstrides b /\ Forall2 alike vs ws
                     /\ alike (bunspec (sdata a)) (bunspec (sdata b))).
Proof.
  intros Ha Hb. destruct (buf_eq_ok_eq h _ _ vs ws Ha Hb) as (r & Er & Hr). unfold strided_eq_eq.
  destruct (lex_eqb (sshape a) (sshape b)) eqn:E1; [destruct (lex_eqb (sstrides a) (sstrides b)) eqn:E2|]; cbn [andb].
  - apply lex_eqb_eq in E1, E2. exists r. split; [exact Er|]. rewrite Hr. tauto.
  - exists false. split; [reflexivity|]. split; [discriminate|]. intros (_ & E & _).
    apply lex_eqb_eq in E. congruence.
  - exists false. split; [reflexivity|]. split; [discriminate|]. intros (E & _).
    apply lex_eqb_eq in E. congruence.
Qed.

Hypothesis Heq : ints_and_None eqv.

Lemma alike_ints l m : Forall2 alike (map VInt l) (map VInt m) <-> l = m.
Proof.
  split.
  - revert m. induction l as [|x l IH]; intros [|y m] H; inversion H; subst; [reflexivity|]. f_equal; [now apply Heq|auto].
  - intros <-. induction l; cbn; constructor; auto. now apply Heq.
Qed.

(** Sparse arrays of one class. *)
Lemma sparse_eq_ok_eq h s t E F : entries h s E -> entries h t F -> same_class s t ->
  exists r, storage_eq_eq eqv h s t = Ok r
    /\ (r = true <-> shape_of s = shape_of t /\ alike (unspecified_of s) (unspecified_of t)
                     /\ map fst E = map fst F /\ Forall2 alike (map snd E) (map snd F)).
Proof.
  intros HE HF Hc. destruct Heq as [_ HN]. destruct s, t; try contradiction; cbn [storage_eq_eq shape_of unspecified_of].
  - destruct HE as (Hn & Hne & (Hb & _) & Hd & Hsh & Hst & Hi & _ & Hu).
    destruct HF as (Hn' & Hne' & (Hb' & _) & Hd' & Hsh' & Hst' & Hi' & _ & Hu').
    destruct (if_ok (lex_eqb shape shape0) (andM (strided_eq_eq eqv h indices indices0) (buf_eq_eq eqv h data data0))
      (shape = shape0) _ (lex_eqb_eq _ _) (fun _ => andM_ok _ _ _ _ (strided_eq_ok_eq h _ _ _ _ Hi Hi') (buf_eq_ok_eq h _ _ _ _ Hd Hd')))
      as (r & Er & Hr). exists r. split; [exact Er|]. rewrite Hr. clear Er Hr. rewrite alike_ints. split.
    + intros (<- & (E1 & E2 & E3 & E4) & E5 & E6). split; [reflexivity|]. split; [exact E6|]. split; [|exact E5].
      apply (concat_columns_eq shape); auto. apply alike_len in E5. now rewrite !map_length in E5.
    + intros (<- & E1 & E2 & E3). split; [reflexivity|]. rewrite Hsh, Hsh', Hst, Hst', Hu, Hu'.
      assert (L : zlen E = zlen F) by (apply (f_equal zlen) in E2; now rewrite !zlen_map in E2).
      assert (C : forall k, column k E = column k F).
      { intros k. assert (X : forall G : list (list Z * pyval), column k G = map (fun i => nth k i 0) (map fst G))
          by (intros G; unfold column; now rewrite map_map). now rewrite !X, E2. }
      rewrite L. repeat split; auto. f_equal. now apply map_ext.
  - destruct HE as (Hn & Hne & (Hb & _) & Hd & Hi & _ & Hu).
    destruct HF as (Hn' & Hne' & (Hb' & _) & Hd' & Hi' & _ & Hu').
    destruct (if_ok (lex_eqb shape shape0) (andM (buf_eq_eq eqv h findices findices0) (buf_eq_eq eqv h data data0))
      (shape = shape0) _ (lex_eqb_eq _ _) (fun _ => andM_ok _ _ _ _ (buf_eq_ok_eq h _ _ _ _ Hi Hi') (buf_eq_ok_eq h _ _ _ _ Hd Hd')))
      as (r & Er & Hr). exists r. split; [exact Er|]. rewrite Hr. clear Er Hr.
    assert (X : forall sh (G : list (list Z * pyval)), map (fun e => VInt (zdot (fst e) (c_strides sh))) G
      = map VInt (map (fun i => zdot i (c_strides sh)) (map fst G))) by (intros; now rewrite !map_map).
    rewrite !X, alike_ints. split.
    + intros (<- & (E1 & E2) & E5 & E6). split; [reflexivity|]. split; [exact E6|]. split; [|exact E5].
      apply (map_inj_in (fun i => zdot i (c_strides shape))); [|exact E1].
      intros x y Hx Hy Ez. rewrite c_strides_make in Ez.
      apply in_map_iff in Hx, Hy. destruct Hx as (e & <- & Hx), Hy as (f & <- & Hy).
      rewrite Forall_forall in Hb, Hb'. eapply ravel_inj; eauto.
    + intros (<- & E1 & E2 & E3). split; [reflexivity|]. rewrite Hu, Hu', E2. auto.
  - destruct HE as (Hn & Hne & Ho & Hd & Hr & Hk & _ & _ & Hu & Hv).
    destruct HF as (Hn' & Hne' & Ho' & Hd' & Hr' & Hk' & _ & _ & Hu' & Hv').
    destruct (if_ok (lex_eqb shape shape0) (andM (buf_eq_eq eqv h crow crow0) (andM (buf_eq_eq eqv h col col0) (buf_eq_eq eqv h data data0)))
      (shape = shape0) _ (lex_eqb_eq _ _)
      (fun _ => andM_ok _ _ _ _ (buf_eq_ok_eq h _ _ _ _ Hr Hr')
         (andM_ok _ _ _ _ (buf_eq_ok_eq h _ _ _ _ Hk Hk') (buf_eq_ok_eq h _ _ _ _ Hd Hd'))))
      as (r & Er & Hx). exists r. split; [exact Er|]. rewrite Hx. clear Er Hx.
    assert (X : forall n (G : list (list Z * pyval)),
      map (fun r => VInt (zlen (filter (fun x => x <? r) (column 0 G)))) (zseq (n + 1)) = map VInt (crow_of n G))
      by (intros; unfold crow_of; now rewrite map_map).
    rewrite !X, !alike_ints. split.
    + intros (<- & (E1 & _) & (E2 & _) & E5 & E6). split; [reflexivity|]. split; [exact E6|]. split; [|exact E5].
      destruct shape as [|n [|m [|? ?]]]; cbn in Hne; try lia. cbn [nth] in E1.
      assert (Hc0 : column 0 E = column 0 F).
      { pose proof (compress_column n m E Hn Ho) as C1. pose proof (compress_column n m F Hn Ho') as C2.
        rewrite E1 in C1. destruct (ordered_columns n m E Ho) as [B1 _]. destruct (ordered_columns n m F Ho') as [B2 _].
        inversion Hn; subst.
        rewrite <- (uncompress_compress _ n _ (StronglySorted_Sorted (column0_sorted n m E Ho)) ltac:(lia) B1 C1).
        exact (uncompress_compress _ n _ (StronglySorted_Sorted (column0_sorted n m F Ho')) ltac:(lia) B2 C2). }
      apply (columns_rank [n; m]); [apply Ho|apply Ho'| |].
      * apply alike_len in E5. now rewrite !map_length in E5.
      * intros [|[|k]] Hk0; cbn in Hk0; try lia; [exact Hc0|exact E2].
    + intros (<- & E1 & E2 & E3). split; [reflexivity|]. rewrite Hu, Hu', Hv, Hv'.
      assert (C : forall k, column k E = column k F).
      { intros k. assert (Y : forall G : list (list Z * pyval), column k G = map (fun i => nth k i 0) (map fst G))
          by (intros G; unfold column; now rewrite map_map). now rewrite !Y, E2. }
      unfold crow_of. rewrite !C. auto.
Qed.

Lemma lookup_alike u u' E : forall F, alike u u' -> map fst E = map fst F -> Forall2 alike (map snd E) (map snd F) ->
  forall i, alike (lookup E u i) (lookup F u' i).
Proof.
  induction E as [|[k x] E IH]; intros [|[k' y] F] Hu H1 H2 i; try discriminate; [exact Hu|].
  cbn [map fst snd] in *. injection H1 as -> H1. inversion H2; subst. unfold lookup in *. cbn [find fst snd].
  destruct (lex_eqb k' i); [assumption|]. now apply IH.
Qed.

Lemma eq_elements_eq : forall s t h f g, repr h s f -> repr h t g -> forward s ->
  storage_eq_eq eqv h s t = Ok true ->
  same_class s t /\ shape_of s = shape_of t /\ alike (unspecified_of s) (unspecified_of t)
  /\ forall i, in_box i (shape_of s) -> alike (f i) (g i).
Proof.
  assert (W : forall c a, (if c : bool then a else Ok false) = Ok true -> c = true /\ a = Ok true).
  { intros [|] a H; [auto|discriminate]. }
  assert (N2 : forall l m n d d', Forall2 alike l m -> (n < length l)%nat -> alike (nth n l d) (nth n m d')).
  { intros l m n d d' H. revert n. induction H as [|x y l m Hx _ IH]; intros [|n] Hn; cbn in *; try lia; auto. apply IH. lia. }
  assert (SP : forall s t h f g, repr h s f -> repr h t g -> is_sparse s -> same_class s t ->
    storage_eq_eq eqv h s t = Ok true ->
    shape_of s = shape_of t /\ alike (unspecified_of s) (unspecified_of t) /\ forall i, in_box i (shape_of s) -> alike (f i) (g i)).
  { intros s t h f g Hs Ht Hp Hc E.
    assert (exists E F, (entries h s E /\ forall i, in_box i (shape_of s) -> f i = lookup E (unspecified_of s) i)
      /\ (entries h t F /\ forall i, in_box i (shape_of t) -> g i = lookup F (unspecified_of t) i)) as (X & Y & (HX & HfX) & HY & HgY).
    { destruct s, t; try contradiction; destruct Hs as (X & HX), Ht as (Y & HY); exists X, Y; exact (conj HX HY). }
    destruct (sparse_eq_ok_eq h s t X Y HX HY Hc) as (r & Er & Hr). rewrite E in Er. injection Er as <-.
    destruct (proj1 Hr eq_refl) as (E1 & E2 & E3 & E4). split; [exact E1|]. split; [exact E2|].
    intros i Hi. rewrite HfX by exact Hi. rewrite HgY by now rewrite <- E1. now apply lookup_alike. }
  induction s; intros t h f g Hs Ht Hfw E; destruct t; cbn [storage_eq_eq] in E; try discriminate; try contradiction;
    try (destruct Hs as (X & [] & _); fail);
    (split; [exact I|]); try (apply (SP _ _ h); auto; exact I).
  - destruct Hs as (vs & Hv & Hf), Ht as (ws & Hw & Hg). destruct (buf_eq_ok_eq h _ _ _ _ Hv Hw) as (r & Er & Hr).
    rewrite E in Er. injection Er as <-. destruct (proj1 Hr eq_refl) as [HL Hu]. cbn [shape_of unspecified_of].
    pose proof Hv as (_ & _ & _ & Hz & _). pose proof Hw as (_ & _ & _ & Hz' & _).
    pose proof (alike_len _ _ HL) as HLen.
    assert (Hzz : zlen vs = zlen ws) by (unfold zlen; congruence).
    rewrite Hz, Hz'. split; [congruence|]. split; [exact Hu|]. intros i Hi.
    inversion Hi as [|x n i' sh' Hx Hi']; subst. inversion Hi'; subst. rewrite Hf, Hg by lia.
    apply N2; [exact HL|]. unfold zlen in Hx. lia.
  - destruct Hs as (l & Hl & Hok & Hf), Ht as (m & Hm & Hok' & Hg).
    pose proof (window_holds h _ l Hl Hok) as W1. pose proof (window_holds h _ m Hm Hok') as W2.
    destruct (strided_eq_ok_eq h _ _ _ _ W1 W2) as (r & Er & Hr). rewrite E in Er. injection Er as <-.
    destruct (proj1 Hr eq_refl) as (E1 & E2 & E3 & E4). cbn [shape_of unspecified_of].
    split; [exact E1|]. split; [exact E4|]. intros i Hi. rewrite Hf by exact Hi.
    rewrite Hg by now rewrite <- E1. cbn [forward] in Hfw.
    rewrite (strided_window_value h _ l) by assumption.
    rewrite (strided_window_value h _ m) by (try assumption; rewrite <- ?E1, <- ?E2; assumption).
    rewrite E2 in *. apply N2; [exact E3|].
    pose proof W1 as (_ & _ & _ & Hz & _). pose proof (so_pos _ _ Hok i Hi) as Hp. unfold spos in Hp.
    rewrite E2 in Hp. pose proof (zdot_nonneg i _ Hfw (in_box_nonneg _ _ Hi)). unfold zlen in Hz. lia.
  - apply W in E. destruct E as [E1 E2]. rewrite !andb_true_iff, !lex_eqb_eq, !zll_eqb_eq in E1.
    destruct E1 as (((-> & ->) & ->) & ->). destruct Hs as (f' & Hf' & Hd & Hf), Ht as (g' & Hg' & Hd' & Hg).
    cbn [forward] in Hfw. destruct (IHs _ h f' g' Hf' Hg' Hfw E2) as (_ & E3 & E4 & E5).
    cbn [shape_of unspecified_of]. split; [reflexivity|]. split; [exact E4|].
    intros i Hi. rewrite Hf, Hg by exact Hi. apply E5. apply (dm_box _ _ _ _ _ _ Hd). exact Hi.
Qed.
End Eq.

(** s == t: the same class and shape, and at every index equal elements. *)
Theorem C89_eq_elements : forall eqv h s t,
  ints_and_None eqv -> valid h s -> valid h t -> forward s -> storage_eq_eq eqv h s t = Ok true ->
  same_class s t /\ shape_of s = shape_of t /\ eqv (unspecified_of s) (unspecified_of t) = true
  /\ forall i, in_box i (shape_of s) -> exists x y, get_elem h s i = Ok x /\ get_elem h t i = Ok y /\ eqv x y = true.
Proof.
  intros eqv h s t Heq [f Hs] [g Ht] Hf E. destruct (eq_elements_eq eqv Heq s t h f g Hs Ht Hf E) as (E1 & E2 & E3 & E4).
  split; [exact E1|]. split; [exact E2|]. split; [exact E3|]. intros i Hi. exists (f i), (g i).
  split; [exact (repr_get h s f i Hs Hi)|]. split; [apply (repr_get h t g i Ht); now rewrite <- E2|now apply E4].
Qed.
Print Assumptions C89_eq_elements.

Lemma alike_pairs (eqv : pyval -> pyval -> bool) (E F : list (list Z * pyval)) : map fst E = map fst F -> NoDup (map fst E) ->
  (Forall2 (alike eqv) (map snd E) (map snd F) <-> forall i x y, In (i, x) E -> In (i, y) F -> eqv x y = true).
Proof.
  revert F. induction E as [|[k x] E IH]; intros [|[k' y] F] H N; try discriminate; cbn [map fst snd] in *.
  - split; [intros _ i a b []|intros _; constructor].
  - injection H as -> H. inversion N as [|? ? Hk N']; subst. specialize (IH F H N').
    assert (K : forall v, ~ In (k', v) E).
    { intros v Hv. apply Hk. apply in_map_iff. exists (k', v). auto. }
    assert (K' : forall v, ~ In (k', v) F).
    { intros v Hv. apply Hk. rewrite H. apply in_map_iff. exists (k', v). auto. }
    split.
    + intros HF i a b [Ha|Ha] [Hb|Hb].
      * injection Ha as <- <-. injection Hb as <-. now inversion HF.
      * injection Ha as <- <-. now contradiction (K' b).
      * injection Hb as <- <-. now contradiction (K a).
      * inversion HF; subst. eapply (proj1 IH); eassumption.
    + intros HF. constructor.
      * apply (HF k'); now left.
      * apply IH. intros i a b Ha Hb. apply (HF i); now right.
Qed.

(** Sparse arrays of a class are == exactly if they have the same shape, equal
    unspecified values, and equal elements stored at the same indices. *)
Theorem C89_eq_sparse : forall eqv h s t,
  ints_and_None eqv -> valid h s -> valid h t -> is_sparse s -> same_class s t ->
  positive (shape_of s) -> positive (shape_of t) ->
  exists b, storage_eq_eq eqv h s t = Ok b
    /\ (b = true <-> shape_of s = shape_of t /\ eqv (unspecified_of s) (unspecified_of t) = true
                     /\ (forall i, stored h s i <-> stored h t i)
                     /\ forall i x y, stored h s i -> get_elem h s i = Ok x -> get_elem h t i = Ok y -> eqv x y = true).
Proof.
  intros eqv h s t Heq [f Hs] [g Ht] Hsp Hc Hp Hq.
  assert (Hsp' : is_sparse t) by (destruct s, t; try contradiction; exact I).
  destruct (sparse_entries h s f Hs Hsp) as (E & HE & HfE). destruct (sparse_entries h t g Ht Hsp') as (F & HF & HgF).
  destruct (sparse_eq_ok_eq eqv Heq h s t E F HE HF Hc) as (r & Er & Hr). exists r. split; [exact Er|]. rewrite Hr.
  pose proof (entries_ordered h s E HE) as [BE SE]. pose proof (entries_ordered h t F HF) as [BF SF].
  assert (SS : forall i, stored h s i <-> In i (map fst E)) by (intros i; exact (stored_sparse h s E i HE Hp)).
  assert (ST : forall i, stored h t i <-> In i (map fst F)) by (intros i; exact (stored_sparse h t F i HF Hq)).
  assert (NE : NoDup (map fst E)) by (now apply sorted_NoDup).
  assert (NF : NoDup (map fst F)) by (now apply sorted_NoDup).
  assert (GE : forall i x, In (i, x) E -> get_elem h s i = Ok x).
  { intros i x Hin. assert (Hi : in_box i (shape_of s)) by (rewrite Forall_forall in BE; exact (BE _ Hin)).
    rewrite (repr_get h s f i Hs Hi), HfE by exact Hi. f_equal. now apply In_lookup. }
  assert (GF : forall i x, In (i, x) F -> get_elem h t i = Ok x).
  { intros i x Hin. assert (Hi : in_box i (shape_of t)) by (rewrite Forall_forall in BF; exact (BF _ Hin)).
    rewrite (repr_get h t g i Ht Hi), HgF by exact Hi. f_equal. now apply In_lookup. }
  assert (XE : forall i, In i (map fst E) -> exists x, In (i, x) E).
  { intros i Hi. apply in_map_iff in Hi. destruct Hi as ([k x] & <- & Hin). now exists x. }
  assert (XF : forall i, In i (map fst F) -> exists x, In (i, x) F).
  { intros i Hi. apply in_map_iff in Hi. destruct Hi as ([k x] & <- & Hin). now exists x. }
  split.
  - intros (H1 & H2 & H3 & H4). split; [exact H1|]. split; [exact H2|]. split.
    + intros i. now rewrite SS, ST, H3.
    + intros i x y Hi Hx Hy. apply SS in Hi. destruct (XE i Hi) as [x' Hx']. rewrite H3 in Hi. destruct (XF i Hi) as [y' Hy'].
      pose proof (GE i x' Hx') as G1. pose proof (GF i y' Hy') as G2. rewrite Hx in G1. rewrite Hy in G2.
      injection G1 as ->. injection G2 as ->. exact (proj1 (alike_pairs eqv E F H3 NE) H4 i x' y' Hx' Hy').
  - intros (H1 & H2 & H3 & H4). split; [exact H1|]. split; [exact H2|].
    assert (EF : map fst E = map fst F).
    { apply sorted_unique; auto. intros i. now rewrite <- SS, <- ST. }
    split; [exact EF|]. apply (alike_pairs eqv E F EF NE). intros i x y Hx Hy. apply (H4 i x y); auto.
    apply SS. apply in_map_iff. exists (i, x). auto.
Qed.
Print Assumptions C89_eq_sparse.

(** equal() against a rectangular nested list: everything must be stored and be
    equal to the element of the list, or to the unspecified value where the list
    has None. *)
Theorem C89_equal_list : forall eqv h s v sh,
  no_int_is_None eqv -> valid h s -> not_buffer s -> (is_sparse s -> positive (shape_of s)) -> regular sh v ->
  exists b, equal_src_eq eqv h s (SrcSeq v) = Ok b
    /\ (b = true <->
          (forall i, stored h s i <-> in_box i sh)
          /\ forall i x y, in_box i sh -> nested_at v i = Some x -> get_elem h s i = Ok y ->
               (eqv x VNone = true -> eqv y (unspecified_of s) = true)
               /\ (eqv x VNone = false -> eqv y x = true)).
Proof.
  intros eqv h s v sh Heq [f Hs] Bs Ps Hreg.
  destruct (C89_fromobject eqv CStrided h v sh (Some (unspecified_of s)) Heq Hreg I ltac:(discriminate))
    as (t & h1 & E1 & E2 & E3 & E4 & V & Hx & E5 & _). cbn [chosen] in *.
  destruct t; try contradiction. cbn [shape_of] in E3.
  assert (Hs1 : repr h1 s f) by (eapply repr_extends; eassumption).
  assert (El : elements h1 s = elements h s).
  { destruct (elem_data_cases s h f Hs) as [H|[H|H]].
    - destruct s; try contradiction. now rewrite (elements_dense h1 _ f Hs1 I), (elements_dense h _ f Hs I).
    - destruct (sparse_entries h s f Hs H) as (E & HE & _). specialize (Ps H).
      rewrite (elements_sparse h s E HE Ps). apply elements_sparse; [|exact Ps]. eapply entries_extends; eassumption.
    - destruct s; try contradiction. now rewrite (elements_dense h1 _ f Hs1 I), (elements_dense h _ f Hs I). }
  assert (St : forall i, stored h1 s i <-> stored h s i) by (intros i; unfold stored; now rewrite El).
  assert (Gt : forall i, stored h s i -> get_elem h1 s i = get_elem h s i).
  { intros i Hst.
    assert (Hi : in_box i (shape_of s)).
    { destruct (elem_data_cases s h f Hs) as [H|[H|H]].
      - apply (stored_dense h s f i Hs); [destruct s; try contradiction; exact I|exact Hst].
      - destruct (sparse_entries h s f Hs H) as (E & HE & _). specialize (Ps H).
        apply (stored_sparse h s E i HE Ps) in Hst. apply in_map_iff in Hst. destruct Hst as (e & <- & He).
        pose proof (entries_ordered h s E HE) as [Ho _]. rewrite Forall_forall in Ho. now apply Ho.
      - apply (stored_dense h s f i Hs); [destruct s; try contradiction; exact I|exact Hst]. }
    now rewrite (repr_get h s f i Hs Hi), (repr_get h1 s f i Hs1 Hi). }
  destruct V as [g Hg].
  destruct (C89_equal eqv h1 s (SStrided s0)) as (b & Eb & Hb); auto; try exact I.
  { eexists; exact Hs1. } { eexists; exact Hg. } { intros []. }
  exists b. split.
  - unfold equal_eq in Eb. unfold equal_src_eq. rewrite El in Eb. destruct (elements h s); [|discriminate]. cbn [bind] in *.
    destruct s; try contradiction; cbn [fromobject_eq] in E1; rewrite E1; exact Eb.
  - rewrite Hb.
    assert (SD : forall i, stored h1 (SStrided s0) i <-> in_box i sh).
    { intros i. rewrite (stored_dense h1 _ g i Hg I). cbn [shape_of]. now rewrite E3. }
    assert (NS : ~ sparse_class CStrided) by (intros [Q|[Q|Q]]; discriminate).
    split.
    + intros [H1 H2]. split; [intros i; now rewrite <- SD, <- H1, St|].
      intros i x y Hi Hn Hy. destruct (E5 i Hi) as (x' & y' & X1 & X2 & X3 & _ & X4). rewrite Hn in X1. injection X1 as <-.
      assert (Hst : stored h1 s i) by (apply H1, SD, Hi). assert (Hst' : stored h s i) by now apply St.
      specialize (H2 i y y' Hst ltac:(now rewrite Gt) X2). split; intros Q.
      * now rewrite <- (X3 Q).
      * rewrite <- (X4 Q ltac:(tauto)). exact H2.
    + intros [H1 H2]. split; [intros i; now rewrite SD, St, H1|].
      intros i y y' Hst Hy Hy'. apply St in Hst. rewrite Gt in Hy by exact Hst. assert (Hi : in_box i sh) by now apply H1.
      destruct (E5 i Hi) as (x & y2 & X1 & X2 & X3 & _ & X4). rewrite Hy' in X2. injection X2 as <-.
      destruct (H2 i x y Hi X1 Hy) as [Y1 Y2]. destruct (eqv x VNone) eqn:Ev.
      * rewrite (X3 eq_refl). auto.
      * rewrite (X4 eq_refl ltac:(tauto)). auto.
Qed.
Print Assumptions C89_equal_list.

(** FlatCOO arrays made from [[1, 0.0], [2, None]] and [[1, 0], [2, 0]], and from
    lists with 1 and 1.0, are == and equal; so is the Strided array and the list. *)
Definition one : pyval := VAtom 2.
Definition py_eq1 (x y : pyval) : bool :=
  match x, y with
  | VAtom 2, VInt 1 | VInt 1, VAtom 2 => true
  | _, _ => py_eq x y
  end.
Example C89_eq_case : ints_and_None py_eq1 /\ no_int_is_None py_eq1
  /\ ('(s, h) <- fromobject_eq py_eq1 CFlatCOO [] (SrcSeq (VSeq [VSeq [VInt 1; float0]; VSeq [VInt 2; VNone]])) (fo_unspecified (Some (VInt 0))) ;;
      '(t, h) <- fromobject_eq py_eq1 CFlatCOO h (SrcSeq (VSeq [VSeq [one; VInt 0]; VSeq [VInt 2; VInt 0]])) (fo_unspecified (Some float0)) ;;
      '(d, h) <- fromobject_eq py_eq1 CStrided h (SrcSeq (VSeq [VSeq [one; VInt 0]; VSeq [VInt 2; VInt 0]])) (fo_unspecified (Some float0)) ;;
      b <- storage_eq_eq py_eq1 h s t ;; b' <- equal_eq py_eq1 h s t ;;
      c <- equal_src_eq py_eq1 h d (SrcSeq (VSeq [VSeq [VInt 1; VInt 0]; VSeq [VInt 2; VNone]])) ;;
      c' <- equal_src_eq py_eq1 h s (SrcSeq (VSeq [VSeq [VInt 1; VInt 0]; VSeq [VInt 2; VNone]])) ;;
      n <- storage_eq h s t ;;
      Ok (b, b', c, c', n)) = Ok (true, true, true, false, false).
Proof.
  split.
  { split; [|reflexivity]. intros a b. assert (E : py_eq1 (VInt a) (VInt b) = veqb (VInt a) (VInt b)).
    { unfold py_eq1, py_eq. destruct a as [|[p|p|]|p]; reflexivity. }
    rewrite E, veqb_iff. split; congruence. }
  split; [intros z; destruct z as [|[]|]; reflexivity|]. vm_compute. reflexivity.
Qed.

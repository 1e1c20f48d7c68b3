(** == and equal(). *)
From Coq Require Import Sorting.Sorted Permutation ZifyBool.
From Verif Require Import Py SliceTools Basics Storage Spec SliceFacts IndexFacts
  CompressFacts ReduceFacts SolverFacts SolveFacts Repr ReprFacts ViewFacts BuildFacts SparseFacts
  ConvFacts FromFacts DMFacts ReadFacts.

(** * == *)
Lemma buf_eq_ok h a b vs ws : holds h a vs -> holds h b ws ->
  exists r, buf_eq h a b = Ok r /\ (r = true <-> vs = ws /\ bunspec a = bunspec b).
Proof.
  intros Ha Hb. pose proof Ha as (l & Hl & _ & Hs & _). pose proof Hb as (m & Hm & _ & Ht & _).
  unfold buf_eq. rewrite (cell_ok _ _ _ Hl), (cell_ok _ _ _ Hm). cbn [bind].
  rewrite (holds_slice h a vs l Ha Hl), (holds_slice h b ws m Hb Hm).
  eexists. split; [reflexivity|]. rewrite !andb_true_iff. unfold vlist_eqb. rewrite !veqb_iff. split.
  - intros ((_ & E) & E'). injection E as ->. auto.
  - intros [-> E]. rewrite Hs, Ht, Z.eqb_refl. auto.
Qed.

Lemma strided_eq_ok h a b vs ws : holds h (sdata a) vs -> holds h (sdata b) ws ->
  exists r, strided_eq h a b = Ok r
    /\ (r = true <-> sshape a = sshape b /\ sstrides a = sstrides b /\ vs = ws
                     /\ bunspec (sdata a) = bunspec (sdata b)).
Proof.
  intros Ha Hb. destruct (buf_eq_ok h _ _ vs ws Ha Hb) as (r & Er & Hr). unfold strided_eq.
  destruct (lex_eqb (sshape a) (sshape b)) eqn:E1; [destruct (lex_eqb (sstrides a) (sstrides b)) eqn:E2|]; cbn [andb].
  - apply lex_eqb_eq in E1, E2. exists r. split; [exact Er|]. rewrite Hr. tauto.
  - exists false. split; [reflexivity|]. split; [discriminate|]. intros (_ & E & _).
    apply lex_eqb_eq in E. congruence.
  - exists false. split; [reflexivity|]. split; [discriminate|]. intros (E & _).
    apply lex_eqb_eq in E. congruence.
Qed.

Lemma andM_ok a b (P Q : Prop) :
  (exists r, a = Ok r /\ (r = true <-> P)) -> (exists r, b = Ok r /\ (r = true <-> Q)) ->
  exists r, andM a b = Ok r /\ (r = true <-> P /\ Q).
Proof.
  intros (x & -> & Hx) (y & -> & Hy). unfold andM. cbn [bind]. destruct x.
  - exists y. split; [reflexivity|]. rewrite Hy. tauto.
  - exists false. split; [reflexivity|]. split; [discriminate|]. intros [H _]. now apply Hx in H.
Qed.

Lemma if_ok (c : bool) a (P Q : Prop) : (c = true <-> P) ->
  (P -> exists r, a = Ok r /\ (r = true <-> Q)) ->
  exists r, (if c then a else Ok false) = Ok r /\ (r = true <-> P /\ Q).
Proof.
  intros Hc Ha. destruct c.
  - destruct Ha as (r & Er & Hr); [now apply Hc|]. exists r. split; [exact Er|]. rewrite Hr. tauto.
  - exists false. split; [reflexivity|]. split; [discriminate|]. intros [H _]. now apply Hc in H.
Qed.

Lemma map_inj_in {A B} (f : A -> B) : forall l m, 
  (forall x y, In x l -> In y m -> f x = f y -> x = y) -> map f l = map f m -> l = m.
Proof.
  induction l as [|x l IH]; intros [|y m] H E; cbn in E; try discriminate; [reflexivity|].
  injection E as E1 E2. f_equal.
  - apply H; cbn; auto.
  - apply IH; [|exact E2]. intros a b Ha Hb. apply H; cbn; auto.
Qed.

Lemma pairs_eq {A B} (l m : list (A * B)) : map fst l = map fst m -> map snd l = map snd m -> l = m.
Proof.
  revert m. induction l as [|[a b] l IH]; intros [|[c d] m] E F; cbn in *; try discriminate; [reflexivity|].
  injection E as -> E. injection F as -> F. f_equal. now apply IH.
Qed.

Lemma columns_rank sh (E F : list (list Z * pyval)) :
  Forall (fun e => in_box (fst e) sh) E -> Forall (fun e => in_box (fst e) sh) F ->
  length E = length F ->
  (forall k, (k < length sh)%nat -> column k E = column k F) -> map fst E = map fst F.
Proof.
  intros HE HF Hl Hc. apply nth_ext with (d := []) (d' := []); [now rewrite !map_length|].
  intros p Hp. rewrite map_length in Hp.
  assert (N : forall G : list (list Z * pyval), nth p (map fst G) [] = fst (nth p G ([], VNone))).
  { intros G. exact (map_nth fst G ([], VNone) p). }
  rewrite !N. rewrite Forall_forall in HE, HF.
  pose proof (HE _ (nth_In E ([], VNone) Hp)) as H1.
  assert (Hp' : (p < length F)%nat) by lia. pose proof (HF _ (nth_In F ([], VNone) Hp')) as H2.
  apply nth_ext with (d := 0) (d' := 0).
  - rewrite (in_box_len _ _ H1), (in_box_len _ _ H2). reflexivity.
  - intros k Hk. rewrite (in_box_len _ _ H1) in Hk. rewrite <- !column_nth by assumption. now rewrite Hc.
Qed.

Lemma concat_columns_eq sh (E F : list (list Z * pyval)) :
  Forall (fun e => in_box (fst e) sh) E -> Forall (fun e => in_box (fst e) sh) F ->
  length E = length F ->
  concat (map (fun k => column k E) (seq 0 (length sh))) = concat (map (fun k => column k F) (seq 0 (length sh))) ->
  map fst E = map fst F.
Proof.
  intros HE HF Hl Hc. apply (columns_rank sh); auto. intros k Hk.
  apply nth_ext with (d := 0) (d' := 0); [unfold column; now rewrite !map_length|].
  intros p Hp. unfold column in Hp. rewrite map_length in Hp.
  rewrite !column_nth by lia. rewrite <- !(nth_concat_columns _ (length sh)) by lia. rewrite Hc, Hl. reflexivity.
Qed.

Lemma zlen_eq_len {A B} (l : list A) (m : list B) : zlen l = zlen m -> length l = length m.
Proof. unfold zlen. lia. Qed.

Lemma vint_map_eq l m : map VInt l = map VInt m -> l = m.
Proof. apply map_inj_in. intros x y _ _ E. now injection E. Qed.

(** Sparse storages of one class are == exactly when they have the same shape,
    unspecified value and stored entries. *)
Definition same_class (s t : storage) : Prop :=
  match s, t with
  | SBuffer _, SBuffer _ | SStrided _, SStrided _ | SCOO _ _ _, SCOO _ _ _ | SFlatCOO _ _ _, SFlatCOO _ _ _
  | SCSR _ _ _ _, SCSR _ _ _ _ | SDM _ _ _ _ _ _, SDM _ _ _ _ _ _ => True
  | _, _ => False
  end.

Lemma sparse_eq_ok h s t E F : entries h s E -> entries h t F -> same_class s t ->
  exists r, storage_eq h s t = Ok r
    /\ (r = true <-> shape_of s = shape_of t /\ unspecified_of s = unspecified_of t /\ E = F).
Proof.
  intros HE HF Hc. destruct s, t; try contradiction; cbn [storage_eq shape_of unspecified_of].
  - destruct HE as (Hn & Hne & (Hb & _) & Hd & Hsh & Hst & Hi & _ & Hu).
    destruct HF as (Hn' & Hne' & (Hb' & _) & Hd' & Hsh' & Hst' & Hi' & _ & Hu').
    destruct (if_ok (lex_eqb shape shape0) (andM (strided_eq h indices indices0) (buf_eq h data data0))
      (shape = shape0) _ (lex_eqb_eq _ _) (fun _ => andM_ok _ _ _ _ (strided_eq_ok h _ _ _ _ Hi Hi') (buf_eq_ok h _ _ _ _ Hd Hd')))
      as (r & Er & Hr). exists r. split; [exact Er|]. rewrite Hr. clear Er Hr. split.
    + intros (<- & (E1 & E2 & E3 & E4) & E5 & E6). split; [reflexivity|]. split; [exact E6|].
      apply pairs_eq; [|exact E5]. apply vint_map_eq in E3. apply (concat_columns_eq shape); auto.
      apply (f_equal (@length _)) in E5. now rewrite !map_length in E5.
    + intros (<- & E1 & <-). split; [reflexivity|]. rewrite Hsh, Hsh', Hst, Hst', Hu, Hu', E1. auto.
  - destruct HE as (Hn & Hne & (Hb & _) & Hd & Hi & _ & Hu).
    destruct HF as (Hn' & Hne' & (Hb' & _) & Hd' & Hi' & _ & Hu').
    destruct (if_ok (lex_eqb shape shape0) (andM (buf_eq h findices findices0) (buf_eq h data data0))
      (shape = shape0) _ (lex_eqb_eq _ _) (fun _ => andM_ok _ _ _ _ (buf_eq_ok h _ _ _ _ Hi Hi') (buf_eq_ok h _ _ _ _ Hd Hd')))
      as (r & Er & Hr). exists r. split; [exact Er|]. rewrite Hr. clear Er Hr. split.
    + intros (<- & (E1 & E2) & E5 & E6). split; [reflexivity|]. split; [exact E6|].
      apply pairs_eq; [|exact E5]. apply (map_inj_in (fun i => VInt (zdot i (c_strides shape)))).
      * intros x y Hx Hy Ez. injection Ez as Ez. rewrite c_strides_make in Ez.
        apply in_map_iff in Hx, Hy. destruct Hx as (e & <- & Hx), Hy as (f & <- & Hy).
        rewrite Forall_forall in Hb, Hb'. eapply ravel_inj; eauto.
      * now rewrite !map_map.
    + intros (<- & E1 & <-). split; [reflexivity|]. rewrite Hu, Hu', E1. auto.
  - destruct HE as (Hn & Hne & Ho & Hd & Hr & Hk & _ & _ & Hu & Hv).
    destruct HF as (Hn' & Hne' & Ho' & Hd' & Hr' & Hk' & _ & _ & Hu' & Hv').
    destruct (if_ok (lex_eqb shape shape0) (andM (buf_eq h crow crow0) (andM (buf_eq h col col0) (buf_eq h data data0)))
      (shape = shape0) _ (lex_eqb_eq _ _)
      (fun _ => andM_ok _ _ _ _ (buf_eq_ok h _ _ _ _ Hr Hr')
         (andM_ok _ _ _ _ (buf_eq_ok h _ _ _ _ Hk Hk') (buf_eq_ok h _ _ _ _ Hd Hd'))))
      as (r & Er & Hx). exists r. split; [exact Er|]. rewrite Hx. clear Er Hx. split.
    + intros (<- & (E1 & _) & (E2 & _) & E5 & E6). split; [reflexivity|]. split; [exact E6|].
      apply pairs_eq; [|exact E5]. destruct shape as [|n [|m [|? ?]]]; cbn in Hne; try lia.
      assert (Hc0 : column 0 E = column 0 F).
      { pose proof (compress_column n m E Hn Ho) as C1. pose proof (compress_column n m F Hn Ho') as C2.
        assert (Ec : crow_of n E = crow_of n F).
        { apply vint_map_eq. unfold crow_of. rewrite !map_map. exact E1. }
        rewrite Ec in C1. destruct (ordered_columns n m E Ho) as [B1 _]. destruct (ordered_columns n m F Ho') as [B2 _].
        inversion Hn; subst.
        rewrite <- (uncompress_compress _ n _ (StronglySorted_Sorted (column0_sorted n m E Ho)) ltac:(lia) B1 C1).
        exact (uncompress_compress _ n _ (StronglySorted_Sorted (column0_sorted n m F Ho')) ltac:(lia) B2 C2). }
      apply (columns_rank [n; m]); [apply Ho|apply Ho'| |].
      * apply (f_equal (@length _)) in E5. now rewrite !map_length in E5.
      * intros [|[|k]] Hk0; cbn in Hk0; try lia; [exact Hc0|]. now apply vint_map_eq.
    + intros (<- & E1 & <-). split; [reflexivity|]. rewrite Hu, Hu', Hv, Hv', E1. auto.
Qed.

(** No negative stride (no axis has been reversed). *)
Fixpoint forward (s : storage) : Prop :=
  match s with
  | SStrided t => Forall (fun k => 0 <= k) (sstrides t)
  | SDM _ _ _ _ _ d => forward d
  | _ => True
  end.

Lemma zdot_nonneg i : forall st, Forall (fun k => 0 <= k) st -> Forall (fun x => 0 <= x) i -> 0 <= zdot i st.
Proof.
  induction i as [|x i IH]; intros [|k st] Hs Hi; cbn [zdot]; try lia.
  inversion Hs; subst. inversion Hi; subst. specialize (IH st ltac:(assumption) ltac:(assumption)). nia.
Qed.

Lemma in_box_nonneg i sh : in_box i sh -> Forall (fun x => 0 <= x) i.
Proof. intros H. induction H; constructor; auto. lia. Qed.

Lemma window_holds h t l : nth_error h (baddr (sdata t)) = Some l -> strided_ok t l ->
  holds h (sdata t) (firstn (Z.to_nat (bsize (sdata t))) (skipn (Z.to_nat (boff (sdata t))) l)).
Proof.
  intros Hl Ht. destruct Ht as [_ _ Ho He Hs _ _]. set (vs := firstn _ _).
  assert (Hz : zlen vs = bsize (sdata t)).
  { unfold vs, zlen in *. rewrite firstn_length, skipn_length. lia. }
  exists l. split; [exact Hl|]. split; [exact Ho|]. split; [now rewrite Hz|]. split; [exact He|].
  unfold vs at 2. f_equal. unfold zlen in *. lia.
Qed.

Lemma zll_eqb_eq a b : zll_eqb a b = true <-> a = b.
Proof.
  unfold zll_eqb. revert b. induction a as [|x a IH]; intros [|y b]; cbn; try (split; congruence).
  rewrite andb_true_iff, lex_eqb_eq, IH. split; [intros [-> ->]; reflexivity|intros E; injection E; auto].
Qed.

Lemma strided_window_value h t l i : nth_error h (baddr (sdata t)) = Some l -> strided_ok t l ->
  Forall (fun k => 0 <= k) (sstrides t) -> in_box i (sshape t) ->
  let vs := firstn (Z.to_nat (bsize (sdata t))) (skipn (Z.to_nat (boff (sdata t))) l) in
  nth (Z.to_nat (spos t i)) l VNone = nth (Z.to_nat (zdot i (sstrides t))) vs VNone.
Proof.
  intros Hl Ht Hf Hi vs. pose proof (window_holds h t l Hl Ht) as Hw. fold vs in Hw.
  pose proof Hw as (_ & _ & _ & Hz & _). pose proof (so_pos _ _ Ht i Hi) as Hp. unfold spos in *.
  pose proof (zdot_nonneg i _ Hf (in_box_nonneg _ _ Hi)).
  rewrite (holds_nth h _ vs l _ Hl Hw) by lia. reflexivity.
Qed.

Lemma eq_elements : forall s t h f g, repr h s f -> repr h t g -> forward s ->
  storage_eq h s t = Ok true ->
  same_class s t /\ shape_of s = shape_of t /\ unspecified_of s = unspecified_of t
  /\ forall i, in_box i (shape_of s) -> f i = g i.
Proof.
  assert (W : forall c a, (if c : bool then a else Ok false) = Ok true -> c = true /\ a = Ok true).
  { intros [|] a H; [auto|discriminate]. }
  assert (SP : forall s t h f g, repr h s f -> repr h t g -> is_sparse s -> same_class s t ->
    storage_eq h s t = Ok true ->
    shape_of s = shape_of t /\ unspecified_of s = unspecified_of t /\ forall i, in_box i (shape_of s) -> f i = g i).
  { intros s t h f g Hs Ht Hp Hc E.
    assert (exists E F, (entries h s E /\ forall i, in_box i (shape_of s) -> f i = lookup E (unspecified_of s) i)
      /\ (entries h t F /\ forall i, in_box i (shape_of t) -> g i = lookup F (unspecified_of t) i)) as (X & Y & (HX & HfX) & HY & HgY).
    { destruct s, t; try contradiction; destruct Hs as (X & HX), Ht as (Y & HY); exists X, Y; exact (conj HX HY). }
    destruct (sparse_eq_ok h s t X Y HX HY Hc) as (r & Er & Hr). rewrite E in Er. injection Er as <-.
    destruct (proj1 Hr eq_refl) as (E1 & E2 & E3). split; [exact E1|]. split; [exact E2|].
    intros i Hi. rewrite HfX by exact Hi. rewrite HgY by now rewrite <- E1. now rewrite E2, E3. }
  induction s; intros t h f g Hs Ht Hfw E; destruct t; cbn [storage_eq] in E; try discriminate; try contradiction;
    try (destruct Hs as (X & [] & _); fail);
    (split; [exact I|]); try (apply (SP _ _ h); auto; exact I).
  - destruct Hs as (vs & Hv & Hf), Ht as (ws & Hw & Hg). destruct (buf_eq_ok h _ _ _ _ Hv Hw) as (r & Er & Hr).
    rewrite E in Er. injection Er as <-. destruct (proj1 Hr eq_refl) as [<- Hu]. cbn [shape_of unspecified_of].
    pose proof Hv as (_ & _ & _ & Hz & _). pose proof Hw as (_ & _ & _ & Hz' & _).
    rewrite Hz, Hz'. split; [reflexivity|]. split; [exact Hu|]. intros i Hi.
    inversion Hi as [|x n i' sh' Hx Hi']; subst. inversion Hi'; subst. now rewrite Hf, Hg.
  - destruct Hs as (l & Hl & Hok & Hf), Ht as (m & Hm & Hok' & Hg).
    pose proof (window_holds h _ l Hl Hok) as W1. pose proof (window_holds h _ m Hm Hok') as W2.
    destruct (strided_eq_ok h _ _ _ _ W1 W2) as (r & Er & Hr). rewrite E in Er. injection Er as <-.
    destruct (proj1 Hr eq_refl) as (E1 & E2 & E3 & E4). cbn [shape_of unspecified_of].
    split; [exact E1|]. split; [exact E4|]. intros i Hi. rewrite Hf by exact Hi.
    rewrite Hg by now rewrite <- E1. cbn [forward] in Hfw.
    rewrite (strided_window_value h _ l) by assumption.
    rewrite (strided_window_value h _ m) by (try assumption; rewrite <- ?E1, <- ?E2; assumption).
    rewrite E3, E2. reflexivity.
  - apply W in E. destruct E as [E1 E2]. rewrite !andb_true_iff, !lex_eqb_eq, !zll_eqb_eq in E1.
    destruct E1 as (((-> & ->) & ->) & ->). destruct Hs as (f' & Hf' & Hd & Hf), Ht as (g' & Hg' & Hd' & Hg).
    cbn [forward] in Hfw. destruct (IHs _ h f' g' Hf' Hg' Hfw E2) as (_ & E3 & E4 & E5).
    cbn [shape_of unspecified_of]. split; [reflexivity|]. split; [exact E4|].
    intros i Hi. rewrite Hf, Hg by exact Hi. apply E5. apply (dm_box _ _ _ _ _ _ Hd). exact Hi.
Qed.

Lemma storage_eq_total : forall s t h f g, repr h s f -> repr h t g -> exists r, storage_eq h s t = Ok r.
Proof.
  assert (SP : forall s t h f g, repr h s f -> repr h t g -> is_sparse s -> same_class s t ->
    exists r, storage_eq h s t = Ok r).
  { intros s t h f g Hs Ht Hp Hc.
    assert (exists E F, entries h s E /\ entries h t F) as (X & Y & HX & HY).
    { destruct s, t; try contradiction; destruct Hs as (X & HX & _), Ht as (Y & HY & _); exists X, Y; exact (conj HX HY). }
    destruct (sparse_eq_ok h s t X Y HX HY Hc) as (r & Er & Hr). eauto. }
  induction s; intros t h f g Hs Ht; destruct t; try (exists false; reflexivity);
    try (apply (SP _ _ h f g); auto; exact I).
  - destruct Hs as (vs & Hv & Hf), Ht as (ws & Hw & Hg). destruct (buf_eq_ok h _ _ _ _ Hv Hw) as (r & Er & Hr). eauto.
  - destruct Hs as (l & Hl & Hok & Hf), Ht as (m & Hm & Hok' & Hg).
    pose proof (window_holds h _ l Hl Hok) as W1. pose proof (window_holds h _ m Hm Hok') as W2.
    destruct (strided_eq_ok h _ _ _ _ W1 W2) as (r & Er & Hr). eauto.
  - destruct Hs as (E & [] & _).
  - destruct Hs as (f' & Hf' & Hd & Hf), Ht as (g' & Hg' & Hd' & Hg). cbn [storage_eq].
    destruct (_ && _); eauto.
Qed.

(** * Dicts *)
Lemma key_eqb_eq a b : key_eqb a b = true <-> a = b.
Proof.
  destruct a, b; cbn; try (split; congruence).
  - rewrite Z.eqb_eq. split; congruence.
  - rewrite lex_eqb_eq. split; congruence.
Qed.

Lemma dict_fold k : forall l acc, 
  fold_left (fun acc (p : key * pyval) => if key_eqb (fst p) k then Some (snd p) else acc) l acc
  = match dict_get l k with Some v => Some v | None => acc end.
Proof.
  unfold dict_get. induction l as [|p l IH]; intros acc; cbn [fold_left]; [reflexivity|].
  rewrite IH. rewrite (IH (if key_eqb (fst p) k then Some (snd p) else None)).
  destruct (fold_left _ l None); [reflexivity|]. now destruct (key_eqb (fst p) k).
Qed.

Lemma dict_get_cons p l k : dict_get (p :: l) k
  = match dict_get l k with Some v => Some v | None => if key_eqb (fst p) k then Some (snd p) else None end.
Proof. unfold dict_get at 1. cbn [fold_left]. now rewrite dict_fold. Qed.

Lemma dict_get_key l k v : dict_get l k = Some v -> In (k, v) l.
Proof.
  induction l as [|p l IH]; [discriminate|]. rewrite dict_get_cons.
  destruct (dict_get l k) as [w|] eqn:E.
  - intros H. right. apply IH. exact H.
  - destruct (key_eqb (fst p) k) eqn:Ek; [|discriminate]. intros H. injection H as <-.
    apply key_eqb_eq in Ek. subst k. left. now destruct p.
Qed.

Lemma dict_get_iff l k v : NoDup (map fst l) -> dict_get l k = Some v <-> In (k, v) l.
Proof.
  intros Hnd. split; [apply dict_get_key|]. revert Hnd. induction l as [|p l IH]; [intros _ []|].
  cbn [map]. intros Hnd. inversion Hnd as [|? ? Hn Hnd']; subst. rewrite dict_get_cons. intros [->|Hin].
  - cbn [fst snd] in *. destruct (dict_get l k) eqn:E.
    + apply dict_get_key in E. apply (in_map fst) in E. contradiction.
    + now rewrite (proj2 (key_eqb_eq k k) eq_refl).
  - now rewrite IH.
Qed.

Lemma dict_sub_iff l m : NoDup (map fst l) -> NoDup (map fst m) ->
  dict_sub l m = true <-> forall p, In p l -> In p m.
Proof.
  intros Hl Hm. unfold dict_sub. rewrite forallb_forall. split.
  - intros H [k v] Hin. specialize (H _ Hin). cbn [fst] in H. rewrite (proj2 (dict_get_iff l k v Hl) Hin) in H.
    destruct (dict_get m k) as [w|] eqn:E; [|discriminate]. apply veqb_eq in H. subst w. now apply dict_get_iff.
  - intros H [k v] Hin. cbn [fst]. rewrite (proj2 (dict_get_iff l k v Hl) Hin).
    rewrite (proj2 (dict_get_iff m k v Hm) (H _ Hin)). apply veqb_refl.
Qed.

Lemma dict_eqb_iff l m : NoDup (map fst l) -> NoDup (map fst m) ->
  dict_eqb l m = true <-> forall p, In p l <-> In p m.
Proof.
  intros Hl Hm. unfold dict_eqb. rewrite andb_true_iff, !dict_sub_iff by assumption. firstorder.
Qed.

(** * equal *)
(** elements() of a valid storage: distinct keys. *)
Lemma elements_ok h s f : repr h s f -> (is_sparse s -> positive (shape_of s)) ->
  exists l, elements h s = Ok l /\ NoDup (map fst l).
Proof.
  intros Hr Hp. destruct s; try (destruct Hr as (E & [] & _); fail).
  - eexists. split; [exact (elements_buffer h b f Hr)|]. rewrite map_map. cbn [fst].
    apply FinFun.Injective_map_NoDup; [intros x y E; now injection E|].
    unfold zseq. apply FinFun.Injective_map_NoDup; [intros x y E; lia|apply seq_NoDup].
  - eexists. split; [exact (elements_dense h _ f Hr I)|]. rewrite map_map. cbn [fst].
    apply FinFun.Injective_map_NoDup; [intros x y E; now injection E|]. apply sorted_NoDup, cart_sorted.
  - specialize (Hp I). destruct Hr as (E & HE & _). eexists. split; [exact (elements_sparse h _ E HE Hp)|].
    rewrite map_map. cbn [fst]. rewrite <- (map_map fst KTup).
    apply FinFun.Injective_map_NoDup; [intros x y Ex; now injection Ex|].
    exact (ordered_NoDup _ _ (entries_ordered _ _ _ HE)).
  - specialize (Hp I). destruct Hr as (E & HE & _). eexists. split; [exact (elements_sparse h _ E HE Hp)|].
    rewrite map_map. cbn [fst]. rewrite <- (map_map fst KTup).
    apply FinFun.Injective_map_NoDup; [intros x y Ex; now injection Ex|].
    exact (ordered_NoDup _ _ (entries_ordered _ _ _ HE)).
  - specialize (Hp I). destruct Hr as (E & HE & _). eexists. split; [exact (elements_sparse h _ E HE Hp)|].
    rewrite map_map. cbn [fst]. rewrite <- (map_map fst KTup).
    apply FinFun.Injective_map_NoDup; [intros x y Ex; now injection Ex|].
    exact (ordered_NoDup _ _ (entries_ordered _ _ _ HE)).
  - eexists. split; [exact (elements_dense h _ f Hr I)|]. rewrite map_map. cbn [fst].
    apply FinFun.Injective_map_NoDup; [intros x y E; now injection E|]. apply sorted_NoDup, cart_sorted.
Qed.

Lemma equal_ok h s t f g l m : repr h s f -> repr h t g ->
  (is_sparse s -> positive (shape_of s)) -> (is_sparse t -> positive (shape_of t)) ->
  elements h s = Ok l -> elements h t = Ok m ->
  exists b, equal h s (SrcSto t) = Ok b /\ (b = true <-> forall p, In p l <-> In p m).
Proof.
  intros Hs Ht Hp Hq El Em. unfold equal. rewrite El. cbn [bind]. rewrite Em. cbn [bind].
  eexists. split; [reflexivity|].
  destruct (elements_ok h s f Hs Hp) as (l' & El' & Hl). rewrite El in El'. injection El' as <-.
  destruct (elements_ok h t g Ht Hq) as (m' & Em' & Hm). rewrite Em in Em'. injection Em' as <-.
  now apply dict_eqb_iff.
Qed.

(** Sorted entry lists without unspecified values are determined by their lookup function. *)
Lemma sorted_unique : forall l m, StronglySorted row_major_lt l -> StronglySorted row_major_lt m ->
  (forall i, In i l <-> In i m) -> l = m.
Proof.
  induction l as [|x l IH]; intros [|y m] Hl Hm H.
  - reflexivity.
  - exfalso. apply (proj2 (H y)). now left.
  - exfalso. apply (proj1 (H x)). now left.
  - inversion Hl as [|? ? Hl' Hx]; subst. inversion Hm as [|? ? Hm' Hy]; subst.
    rewrite Forall_forall in Hx, Hy.
    assert (x = y).
    { destruct (proj1 (H x) (or_introl eq_refl)) as [E|E]; [now symmetry|].
      destruct (proj2 (H y) (or_introl eq_refl)) as [F|F]; [assumption|].
      exfalso. apply (row_major_lt_irrefl x). eapply row_major_lt_trans; [apply Hx, F|apply Hy, E]. }
    subst y. f_equal. apply IH; auto. intros i. split; intros Hi.
    + destruct (proj1 (H i) (or_intror Hi)) as [<-|E]; [|exact E]. exfalso.
      apply (row_major_lt_irrefl x). now apply Hx.
    + destruct (proj2 (H i) (or_intror Hi)) as [<-|E]; [|exact E]. exfalso.
      apply (row_major_lt_irrefl x). now apply Hy.
Qed.

Definition specified_only (u : pyval) (E : list (list Z * pyval)) : Prop := Forall (fun e => snd e <> u) E.

Lemma canonical_unique sh u E F : ordered sh E -> ordered sh F -> specified_only u E -> specified_only u F ->
  (forall i, in_box i sh -> lookup E u i = lookup F u i) -> E = F.
Proof.
  intros HE HF HuE HuF H. pose proof (ordered_NoDup _ _ HE) as NE. pose proof (ordered_NoDup _ _ HF) as NF.
  assert (K : forall E F, ordered sh E -> ordered sh F -> specified_only u E -> NoDup (map fst E) ->
    (forall i, in_box i sh -> lookup E u i = lookup F u i) -> forall i, In i (map fst E) -> In i (map fst F)).
  { clear. intros E F [HE _] HF HuE NE H i Hi. apply in_map_iff in Hi. destruct Hi as ([j v] & <- & Hin). cbn [fst].
    destruct (in_dec (list_eq_dec Z.eq_dec) j (map fst F)) as [D|D]; [exact D|]. exfalso.
    unfold specified_only in HuE. rewrite Forall_forall in HE, HuE. specialize (HuE _ Hin). specialize (HE _ Hin).
    cbn in *. specialize (H j HE). rewrite (In_lookup E u j v NE Hin), (lookup_absent F u j D) in H. contradiction. }
  assert (Ef : map fst E = map fst F).
  { apply sorted_unique; [apply HE|apply HF|]. intros i. split; eapply K; eauto. intros j Hj. symmetry. now apply H. }
  apply pairs_eq; [exact Ef|].
  assert (S : forall E, ordered sh E -> map snd E = map (lookup E u) (map fst E)).
  { clear. intros E HE. pose proof (ordered_NoDup _ _ HE) as NE. rewrite map_map. apply map_ext_in. intros [i v] Hin.
    symmetry. now apply In_lookup. }
  rewrite (S E HE), (S F HF), Ef. apply map_ext_in. intros i Hi. apply H.
  apply in_map_iff in Hi. destruct Hi as (e & <- & He). destruct HF as [HF _]. rewrite Forall_forall in HF. now apply HF.
Qed.

Lemma entries_of_specified sh u f : specified_only u (entries_of sh u f).
Proof.
  apply Forall_forall. intros e He. unfold entries_of, specified in He. apply filter_In in He. destruct He as [_ He].
  intros Eu. rewrite Eu, veqb_refl in He. discriminate.
Qed.

(** * Storages as the constructors leave them *)
(** Strided: contiguous; sparse: no stored unspecified value. *)
Definition normal (h : heap) (s : storage) : Prop :=
  match s with
  | SStrided t => sstrides t = c_strides (sshape t) /\ bsize (sdata t) = product (sshape t)
  | SCOO _ _ _ | SFlatCOO _ _ _ | SCSR _ _ _ _ => exists E, entries h s E /\ specified_only (unspecified_of s) E
  | _ => True
  end.

Lemma entries_extends h h' s E : extends h h' -> entries h s E -> entries h' s E.
Proof.
  intros Hx HE. eapply entries_frame; [|exact HE]. intros a Ha. destruct Hx as [t ->].
  apply nth_error_app1. eapply repr_addrs; [exact (repr_entries h s E HE)|exact Ha].
Qed.

Lemma normal_extends h h' s : extends h h' -> normal h s -> normal h' s.
Proof.
  intros Hx. destruct s; cbn [normal]; auto; intros (E & HE & Hs); exists E; split; auto; eapply entries_extends; eassumption.
Qed.

Lemma contiguous_window h t f : repr h (SStrided t) f -> normal h (SStrided t) ->
  holds h (sdata t) (map f (cart (sshape t))).
Proof.
  intros (l & Hl & Hok & Hf) [Hst Hsz]. pose proof (window_holds h t l Hl Hok) as W.
  assert (Hn : nonneg (sshape t)) by apply (so_shape _ _ Hok).
  replace (map f (cart (sshape t))) with (firstn (Z.to_nat (bsize (sdata t))) (skipn (Z.to_nat (boff (sdata t))) l)); [exact W|].
  pose proof (cart_length _ Hn) as Hc. pose proof W as (_ & _ & _ & Hz & _). unfold zlen in Hz.
  apply nth_ext with (d := VNone) (d' := f []); [rewrite map_length; lia|].
  intros k Hk. rewrite map_nth.
  assert (Hk' : (k < length (cart (sshape t)))%nat) by lia.
  set (i := nth k (cart (sshape t)) []). assert (Hi : in_box i (sshape t)) by (apply In_cart; now apply nth_In).
  rewrite Hf by exact Hi. rewrite c_strides_make in Hst.
  assert (Hp : zdot i (sstrides t) = Z.of_nat k) by (rewrite Hst; unfold i; now apply cart_position).
  pose proof (holds_nth h _ _ l (Z.of_nat k) Hl W ltac:(unfold zlen; lia)) as Hv.
  unfold spos. rewrite Hp, Hv. now rewrite Nat2Z.id.
Qed.

Lemma normal_entries h s f : repr h s f -> normal h s -> is_sparse s ->
  exists E, entries h s E /\ specified_only (unspecified_of s) E
    /\ forall i, in_box i (shape_of s) -> f i = lookup E (unspecified_of s) i.
Proof.
  intros Hr Hn Hs.
  assert (exists E, entries h s E /\ specified_only (unspecified_of s) E) as (E & HE & HsE) by (destruct s; try contradiction; exact Hn).
  exists E. split; [exact HE|]. split; [exact HsE|]. intros i Hi.
  pose proof (repr_get h s f i Hr Hi) as H1. pose proof (repr_get h s _ i (repr_entries h s E HE) Hi) as H2.
  congruence.
Qed.

Lemma normal_eq h s t f g : repr h s f -> repr h t g -> normal h s -> normal h t ->
  same_class s t -> match s with SDM _ _ _ _ _ _ => False | _ => True end ->
  shape_of s = shape_of t -> unspecified_of s = unspecified_of t ->
  (forall i, in_box i (shape_of s) -> f i = g i) -> storage_eq h s t = Ok true.
Proof.
  intros Hs Ht Ns Nt Hc Hd Hsh Hu Hv.
  assert (D : is_sparse s \/ ~ is_sparse s) by (destruct s; cbn; tauto). destruct D as [D|D].
  - assert (D' : is_sparse t) by (destruct s, t; try contradiction; exact I).
    destruct (normal_entries h s f Hs Ns D) as (E & HE & SE & HfE).
    destruct (normal_entries h t g Ht Nt D') as (F & HF & SF & HgF).
    destruct (sparse_eq_ok h s t E F HE HF Hc) as (r & Er & Hr). rewrite Er. f_equal. apply Hr.
    split; [exact Hsh|]. split; [exact Hu|]. apply (canonical_unique (shape_of s) (unspecified_of s)); auto.
    + exact (entries_ordered h s E HE). + rewrite Hsh. exact (entries_ordered h t F HF). + now rewrite Hu.
    + intros i Hi. rewrite <- HfE by exact Hi. rewrite Hu, <- HgF by now rewrite <- Hsh. now apply Hv.
  - destruct s, t; try contradiction; try (exfalso; apply D; exact I).
    + destruct Hs as (vs & Hvs & Hf), Ht as (ws & Hws & Hg). cbn [storage_eq shape_of unspecified_of] in *.
      destruct (buf_eq_ok h _ _ _ _ Hvs Hws) as (r & Er & Hr). rewrite Er. f_equal. apply Hr. split; [|exact Hu].
      injection Hsh as Hsh. pose proof Hvs as (_ & _ & _ & Hz & _). pose proof Hws as (_ & _ & _ & Hz' & _).
      assert (Hl : zlen vs = zlen ws) by lia.
      apply nth_ext with (d := VNone) (d' := VNone); [now apply zlen_eq_len|].
      intros k Hk. specialize (Hv [Z.of_nat k] ltac:(repeat constructor; unfold zlen in *; lia)).
      rewrite Hf, Hg in Hv by (unfold zlen in *; lia). now rewrite !Nat2Z.id in Hv.
    + pose proof (contiguous_window h _ f Hs Ns) as W1. pose proof (contiguous_window h _ g Ht Nt) as W2.
      cbn [storage_eq shape_of unspecified_of] in *.
      destruct (strided_eq_ok h _ _ _ _ W1 W2) as (r & Er & Hr). rewrite Er. f_equal. apply Hr.
      destruct Ns as [Ns _], Nt as [Nt _]. rewrite Ns, Nt, <- Hsh. split; [reflexivity|]. split; [reflexivity|].
      split; [|exact Hu]. apply map_ext_in. intros i Hi. apply In_cart in Hi. now apply Hv.
Qed.

(** Conversions that keep the stored entries. *)
Lemma shortcut_entries c h s E : entries h s E -> positive (shape_of s) ->
  match c with CCOO | CFlatCOO => True | CCSR => length (shape_of s) = 2%nat /\ E <> [] | _ => False end ->
  match s with SCOO _ _ _ | SFlatCOO _ _ _ => True | _ => False end ->
  exists t h', flat_fromobject c h (SrcSto s) (fo_unspecified None) = Ok (t, h')
    /\ entries h' t E /\ unspecified_of t = unspecified_of s.
Proof.
  intros HE Hp Hc Hs.
  destruct c, s; try contradiction; cbn [flat_fromobject]; unfold fo_unspecified;
    unfold coo_fromobject, flatcoo_fromobject, csr_fromobject, coo_fromobject; cbn [is_default bind shape_of unspecified_of] in *.
  - eexists _, h. split; [reflexivity|]. auto.
  - destruct (coo_of_flatcoo_ok h shape findices data E HE Hp) as (ind & d' & h' & E1 & E2 & E3 & E4 & E5).
    rewrite E1. eexists _, _. split; [reflexivity|]. split; [exact E3|exact E4].
  - destruct (flatcoo_of_coo_ok h shape indices data E HE) as (ind & d' & h' & E1 & E2 & E3 & E4 & E5).
    rewrite E1. eexists _, _. split; [reflexivity|]. split; [exact E3|exact E4].
  - eexists _, h. split; [reflexivity|]. auto.
  - destruct Hc as [Hl Hne]. destruct shape as [|n [|m [|? ?]]]; cbn in Hl; try lia.
    destruct (csr_of_coo_ok h n m _ _ _ HE Hne) as (cb & cl & d' & h' & F1 & F2 & F3 & F4 & F5).
    rewrite F1. eexists _, _. split; [reflexivity|]. split; [exact F3|exact F4].
  - destruct Hc as [Hl Hne].
    destruct (coo_of_flatcoo_ok h shape findices data E HE Hp) as (ind & d1 & h1 & E1 & E2 & E3 & E4 & E5).
    rewrite E1. cbn [bind]. destruct shape as [|n [|m [|? ?]]]; cbn in Hl; try lia.
    destruct (csr_of_coo_ok h1 n m _ _ _ E3 Hne) as (cb & cl & d' & h' & F1 & F2 & F3 & F4 & F5).
    rewrite F1. eexists _, _. split; [reflexivity|]. split; [exact F3|]. cbn [unspecified_of]. now rewrite F4.
Qed.

Lemma strided_build_contiguous get g sh su u h t h' : nonneg sh -> (forall i, in_box i sh -> get i = Ok (g i)) ->
  strided_build get sh su u h = Ok (t, h') -> sstrides t = c_strides (sshape t) /\ bsize (sdata t) = product (sshape t).
Proof.
  intros Hn Hg E. destruct (strided_build_ok get g sh su u h Hn Hg) as (E' & _). rewrite E in E'. injection E' as -> _.
  cbn [sstrides sshape sdata bsize]. split; [symmetry; apply c_strides_make|].
  rewrite zlen_map. unfold zlen. now apply cart_length.
Qed.

Lemma conversion_normal c h s f t h' : repr h s f -> normal h s ->
  class_ok c (shape_of s) (unspecified_of s) f -> positive (shape_of s) -> shape_of s <> [] ->
  flat_fromobject c h (SrcSto s) (fo_unspecified None) = Ok (t, h') -> normal h' t.
Proof.
  intros Hr Hn Hc Hp Hne E.
  assert (Hid : forall i, conv_value (unspecified_of s) (unspecified_of s) (f i) = f i) by (intros; apply conv_value_id).
  destruct (fromobject_ok c h (SrcSto s) f None) as (t' & h1 & E1 & E2 & E3 & E4 & E5 & E6 & E7 & E8).
  { split; assumption. }
  { cbn [new_unspec get_shape get_unspecified]. destruct c; cbn [class_ok] in *; auto.
    destruct Hc as [Hl (i & Hi & Hv)]. split; [exact Hl|]. exists i. split; [exact Hi|]. now rewrite Hid. }
  { auto. }
  rewrite E in E1. injection E1 as <- <-. cbn [new_unspec get_shape get_unspecified] in *.
  assert (D : {no_shortcut c (SrcSto s) (fo_unspecified None)} + {~ no_shortcut c (SrcSto s) (fo_unspecified None)}).
  { unfold no_shortcut. destruct s, (is_default (fo_unspecified None)), c; auto; left; exact I. }
  destruct D as [D|D].
  - assert (Q : forall u1 u2 sh f, u1 = u2 -> specified_only u1 (entries_of sh u2 f)) by (intros; subst; apply entries_of_specified).
    destruct (E7 D) as [_ He]. destruct t; cbn [normal]; try exact I.
    + destruct c; try contradiction. cbn [flat_fromobject] in E.
      assert (Eb : strided_fromobject h (SrcSto s) (fo_unspecified None)
        = strided_build (fo_get h (SrcSto s) (fo_unspecified None)) (fo_get_shape (SrcSto s) (fo_unspecified None))
             (get_unspecified (SrcSto s)) (fo_get_unspec (SrcSto s) (fo_unspecified None)) h).
      { unfold no_shortcut in D. unfold strided_fromobject. destruct s; try reflexivity.
        destruct (is_default (fo_unspecified None)); try reflexivity; contradiction. }
      rewrite Eb in E. destruct (source_reads h (SrcSto s) f None) as (R1 & R2 & R3); [split; assumption|].
      rewrite R1 in E. destruct (strided_build _ _ _ _ _) as [[t0 h0]|] eqn:Es; [|discriminate].
      cbn [bind] in E. injection E as <- <-. now apply (strided_build_contiguous _ f _ _ _ _ _ _ R2 R3) in Es.
    + eexists. split; [exact (He I)|]. apply Q. exact E4.
    + eexists. split; [exact (He I)|]. apply Q. exact E4.
    + eexists. split; [exact (He I)|]. apply Q. exact E4.
  - assert (K : match c, s with
                | CBuffer, SBuffer _ | CStrided, SStrided _ => True
                | (CCOO | CFlatCOO | CCSR), (SCOO _ _ _ | SFlatCOO _ _ _) => True
                | _, _ => False end).
    { unfold no_shortcut, is_default, fo_unspecified in D. destruct c, s; try exact I; apply D; exact I. }
    assert (S : match c with CBuffer | CStrided => normal h' t | _ => True end).
    { destruct c, s; try contradiction; try exact I; cbn [flat_fromobject] in E;
        unfold buffer_fromobject, strided_fromobject, fo_unspecified in E; cbn [is_default bind] in E; injection E as <- <-; exact Hn. }
    assert (Z : match s with SCOO _ _ _ | SFlatCOO _ _ _ => True | _ => False end ->
      match c with CCOO | CFlatCOO | CCSR => True | _ => False end -> normal h' t).
    { intros Hs Hc3. assert (Hsp : is_sparse s) by (destruct s; try contradiction; exact I).
      destruct (normal_entries h s f Hr Hn Hsp) as (X & HX & SX & HfX).
      destruct (shortcut_entries c h s X HX Hp) as (t' & h1 & F1 & F2 & F3).
      - destruct c; try contradiction; auto. destruct Hc as [Hl Hsome]. split; [exact Hl|].
        eapply some_specified_entries; [|exact Hsome]. exact HfX.
      - exact Hs.
      - rewrite E in F1. injection F1 as <- <-. rewrite <- F3 in SX. pose proof (entries_sparse _ _ _ F2).
        destruct t; try contradiction; cbn [normal]; eauto. }
    destruct c, s; try contradiction; try exact S; apply Z; exact I.
Qed.

(** C83, C84: lists that contain arrays. *)
From Coq Require Import Sorting.Sorted Permutation ZifyBool.
From Verif Require Import Py SliceTools Basics Storage Nested Spec SliceFacts IndexFacts
  CompressFacts ReduceFacts SolverFacts SolveFacts Repr ReprFacts ViewFacts BuildFacts SparseFacts
  ConvFacts FromFacts DMFacts ReadFacts MapFacts ChainFacts ChainDM WriteFacts PropRead PropChain.

(** * Specification *)

(** [v] is [q] with every array in it replaced by the nested list of its elements. *)
Fixpoint listed (h : heap) (q : nested) (v : pyval) : Prop :=
  match q with
  | NVal w => w = v
  | NSto s => regular (shape_of s) v
              /\ forall i, in_box i (shape_of s) ->
                   exists x, nested_at v i = Some x /\ get_elem h s i = Ok x
  | NSeq l =>
      match v with
      | VSeq vs =>
          (fix all (l : list nested) (vs : list pyval) : Prop :=
             match l, vs with
             | [], [] => True
             | x :: l', y :: vs' => listed h x y /\ all l' vs'
             | _, _ => False
             end) l vs
      | _ => False
      end
  end.

(** Every array in [q] has the property [P]. *)
Fixpoint arrays (P : storage -> Prop) (q : nested) : Prop :=
  match q with
  | NVal _ => True
  | NSto s => P s
  | NSeq l => (fix all (l : list nested) : Prop :=
                 match l with [] => True | x :: l' => arrays P x /\ all l' end) l
  end.

(** A DM array of shape [sh] read as [d[i0][i1]...] gives [d[i0, i1, ...]]: the last
    axis to be dropped of each group of axes is the last axis of the array, or the
    other axes of the group have size 1. *)
Definition stepwise (sh : list Z) (rd : list (list Z)) : Prop :=
  forall g a b, In g rd -> In a g -> In b g -> a < b -> In (zlen sh - 1) g \/ znth a sh = 1.

(** Arrays for which [s[i0][i1]...] is element [i0, i1, ...]. *)
Inductive one_by_one (h : heap) : storage -> Prop :=
| obo_buffer b : valid h (SBuffer b) -> one_by_one h (SBuffer b)
| obo_plain s : valid h s -> shape_of s <> [] ->
    match s with SStrided _ | SCOO _ _ _ | SFlatCOO _ _ _ | SCSR _ _ _ _ => True | _ => False end ->
    one_by_one h s
| obo_dm h0 h1 sh rd rsh rs ro data :
    built_dm h0 h1 (SDM sh rd rsh rs ro data) -> not_dm data ->
    valid h (SDM sh rd rsh rs ro data) -> stepwise sh rd ->
    one_by_one h (SDM sh rd rsh rs ro data).

(** * Facts *)

Lemma nested_ind' (P : nested -> Prop) :
  (forall v, P (NVal v)) -> (forall s, P (NSto s)) -> (forall l, Forall P l -> P (NSeq l)) -> forall q, P q.
Proof.
  intros H1 H2 H3. fix IH 1. intros [v|s|l]; [apply H1|apply H2|]. apply H3.
  induction l as [|x l IHl]; constructor; [apply IH|exact IHl].
Qed.

Lemma listed_seq h l v : listed h (NSeq l) v <-> exists vs, v = VSeq vs /\ Forall2 (listed h) l vs.
Proof.
  cbn [listed]. split.
  - destruct v as [| | |vs]; try contradiction. intros H. exists vs. split; [reflexivity|].
    revert vs H. induction l as [|x l IH]; intros [|y vs] H; try contradiction; constructor; [tauto|]. apply IH. tauto.
  - intros (vs & -> & H). induction H; [exact I|split; assumption].
Qed.

Lemma arrays_seq P l : arrays P (NSeq l) <-> Forall (arrays P) l.
Proof.
  cbn [arrays]. induction l as [|x l IH]; [split; constructor|]. rewrite Forall_cons_iff, IH. reflexivity.
Qed.

Definition int_chain (l : list Z) : list pyindex := map (fun z => XItem (IInt z)) l.

Lemma int_slice_shape z n sh : slice_shape (XItem (IInt z)) (n :: sh) = sh.
Proof. unfold slice_shape. cbn. destruct sh; reflexivity. Qed.
Lemma int_source z n sh j : length j = length sh -> 0 <= z < n ->
  source_index (XItem (IInt z)) (n :: sh) j = z :: j.
Proof.
  intros Hl Hz. unfold source_index. cbn. rewrite Z.mod_small by lia. f_equal.
  destruct sh; [|reflexivity]. destruct j; [reflexivity|discriminate].
Qed.

Lemma int_chain_shape l : forall sh, chain_shape (int_chain l) sh = skipn (length l) sh.
Proof.
  induction l as [|z l IH]; intros sh; cbn [int_chain map chain_shape length skipn]; [reflexivity|].
  fold (int_chain l). rewrite IH. destruct sh as [|n sh]; [cbn; now rewrite skipn_nil|]. now rewrite int_slice_shape.
Qed.

Lemma in_box_app_inv i1 i2 sh : in_box (i1 ++ i2) sh ->
  exists s1 s2, sh = s1 ++ s2 /\ in_box i1 s1 /\ in_box i2 s2.
Proof.
  revert sh. induction i1 as [|x i1 IH]; intros sh H.
  - exists [], sh. repeat split; auto. constructor.
  - cbn [app] in H. inversion H as [|? ? ? ? Hx Hr]; subst. destruct (IH _ Hr) as (s1 & s2 & -> & A & B).
    eexists (_ :: s1), s2. repeat split; [|exact B]. now constructor.
Qed.

Lemma int_chain_source l : forall s1 s2 j, in_box l s1 -> length j = length s2 ->
  chain_source (int_chain l) (s1 ++ s2) j = l ++ j.
Proof.
  induction l as [|z l IH]; intros s1 s2 j Hl Hj; inversion Hl as [|? n ? s1' Hz Hl']; subst;
    cbn [int_chain map chain_source app]; [reflexivity|].
  fold (int_chain l). rewrite int_slice_shape, IH by assumption. apply int_source; [|exact Hz].
  rewrite !app_length. apply in_box_len in Hl'. lia.
Qed.

Lemma int_chain_ok l : forall s1 s2, in_box l s1 -> positive (s1 ++ s2) -> s2 <> [] ->
  chain_ok (int_chain l) (s1 ++ s2).
Proof.
  induction l as [|z l IH]; intros s1 s2 Hl Hp Hne; inversion Hl as [|? n ? s1' Hz Hl']; subst;
    cbn [int_chain map chain_ok app]; [exact I|]. fold (int_chain l). rewrite int_slice_shape.
  split; [exact Hp|]. split; [split; [repeat constructor|right; cbn; lia]|].
  split; [destruct s1', s2; cbn; congruence|]. apply IH; auto. cbn [app] in Hp. now inversion Hp.
Qed.

Lemma in_box_positive i sh : in_box i sh -> positive sh.
Proof. induction 1; constructor; auto. lia. Qed.

Lemma walk_chain l : forall h s s' h' r, getitems h s (int_chain l) = Ok (s', h') ->
  nested_walk h (NSto s) (l ++ r) = nested_walk h' (NSto s') r.
Proof.
  induction l as [|z l IH]; intros h s s' h' r H; cbn [int_chain map getitems app nested_walk] in *.
  - injection H as -> ->. reflexivity.
  - destruct (getitem h s (XItem (IInt z))) as [[[v|t] h1]|]; cbn [bind] in *; try discriminate. now apply IH.
Qed.

Lemma walk_last h s f z n : repr h s f -> shape_of s = [n] -> 0 <= z < n ->
  nested_walk h (NSto s) [z] = Ok (f [z]).
Proof.
  intros Hr Hs Hz. cbn [nested_walk].
  rewrite (getitem_element s h f (XItem (IInt z))).
  - cbn [bind nested_walk]. do 2 f_equal. rewrite Hs. now apply int_source.
  - exact Hr.
  - rewrite Hs. repeat constructor. lia.
  - rewrite Hs. split; [repeat constructor|right; cbn; lia].
  - rewrite Hs. reflexivity.
  - intros b ->. exists z. split; [|reflexivity]. cbn [shape_of] in Hs. injection Hs as ->. exact Hz.
Qed.

Lemma split_last (i : list Z) : i <> [] -> i = removelast i ++ [last i 0].
Proof. apply app_removelast_last. Qed.

Lemma in_box_1 i n : in_box i [n] -> exists z, i = [z] /\ 0 <= z < n.
Proof. intros H. inversion H as [|z ? ? ? Hz Hn]; subst. inversion Hn; subst. eauto. Qed.

Lemma plain_walks h s f i : repr h s f -> plain s -> shape_of s <> [] -> in_box i (shape_of s) ->
  nested_walk h (NSto s) i = Ok (f i).
Proof.
  intros Hr Hpl Hne Hi.
  assert (Hni : i <> []) by (intros ->; inversion Hi as [E|]; congruence).
  rewrite (split_last i Hni) in Hi |- *. set (l := removelast i) in *. set (z := last i 0) in *. clearbody l z.
  pose proof (in_box_positive _ _ Hi) as Hp.
  destruct (in_box_app_inv _ _ _ Hi) as (s1 & s2 & E & B1 & B2).
  inversion B2 as [|? n ? ? Hz B3]; subst. inversion B3; subst.
  rewrite E in Hp.
  destruct (getitems_plain (int_chain l) s h f Hr Hpl) as (s' & h' & G & E2 & _ & _ & Hr' & _).
  { rewrite E. apply int_chain_ok; auto. discriminate. }
  rewrite (walk_chain l h s s' h' [z] G).
  rewrite int_chain_shape, E, (in_box_len _ _ B1), skipn_app, skipn_all, Nat.sub_diag in E2. cbn in E2.
  rewrite (walk_last h' s' _ z n Hr' E2 Hz). cbn beta. rewrite E, int_chain_source by auto. reflexivity.
Qed.

Lemma int_chain_axes l : forall axes, chain_axes (int_chain l) axes = skipn (length l) axes.
Proof.
  induction l as [|z l IH]; intros axes; cbn [int_chain map chain_axes length skipn]; [reflexivity|].
  fold (int_chain l). rewrite IH. destruct axes as [|a axes]; cbn; [now rewrite skipn_nil|].
  destruct axes; reflexivity.
Qed.

Lemma skipn_seq k : forall a n, skipn k (seq a n) = seq (a + k) (n - k).
Proof.
  induction k as [|k IH]; intros a n; cbn [skipn]; [now rewrite Nat.add_0_r, Nat.sub_0_r|].
  destruct n as [|n]; [reflexivity|]. cbn [seq]. rewrite IH. f_equal; lia.
Qed.

Lemma skipn_zseq_In k n a : In a (skipn k (zseq n)) <-> Z.of_nat k <= a < n.
Proof.
  unfold zseq. rewrite skipn_map, in_map_iff. split.
  - intros (x & <- & Hx). rewrite skipn_seq in Hx. apply in_seq in Hx. lia.
  - intros H. exists (Z.to_nat a). split; [lia|]. rewrite skipn_seq. apply in_seq. lia.
Qed.

Lemma int_chain_split l p ix r : int_chain l = p ++ ix :: r ->
  exists l1 z l2, l = l1 ++ z :: l2 /\ p = int_chain l1 /\ ix = XItem (IInt z).
Proof.
  intros H. apply map_eq_app in H. destruct H as (l1 & l' & -> & <- & H).
  destruct l' as [|z l2]; [discriminate|]. injection H as <- <-. eauto 6.
Qed.

Lemma int_touches g l sh : touches g (int_chain l) sh <-> exists a, In a g /\ zlen l <= a < zlen sh.
Proof.
  unfold touches. rewrite int_chain_axes. setoid_rewrite skipn_zseq_In. reflexivity.
Qed.

Lemma int_start l s1 s2 : in_box l s1 -> chain_start (int_chain l) (s1 ++ s2) = l ++ map (fun _ => 0) s2.
Proof.
  intros Hl. unfold chain_start. rewrite int_chain_shape, (in_box_len _ _ Hl), skipn_app, skipn_all, Nat.sub_diag.
  cbn [skipn app]. apply int_chain_source; [exact Hl|apply map_length].
Qed.

Lemma znth_app1 a (l m : list Z) : 0 <= a < zlen l -> znth a (l ++ m) = znth a l.
Proof. intros H. unfold znth. apply app_nth1. unfold zlen in H. lia. Qed.
Lemma znth_zeros a (l : list Z) (m : list Z) : zlen l <= a -> znth a (l ++ map (fun _ => 0) m) = 0.
Proof.
  intros H. unfold znth. rewrite app_nth2 by (unfold zlen in H; lia).
  destruct (nth_in_or_default (Z.to_nat a - length l) (map (fun _ => 0) m) 0) as [Hin|E]; [|exact E].
  apply in_map_iff in Hin. destruct Hin as (? & E & _). symmetry. exact E.
Qed.
Lemma in_box_znth i sh a : in_box i sh -> 0 <= a < zlen sh -> 0 <= znth a i < znth a sh.
Proof.
  intros Hi Ha. unfold znth. unfold zlen in Ha. assert (L : (Z.to_nat a < length sh)%nat) by lia. clear Ha.
  revert L. generalize (Z.to_nat a). induction Hi as [|x n i sh Hx Hi IH]; intros k L; cbn [length] in L; [lia|].
  destruct k; cbn [nth]; [exact Hx|]. apply IH. lia.
Qed.

(** When every group of axes meets the condition, chains of integers compose. *)
Lemma stepwise_composes sh rd l z : stepwise sh rd -> axes_in (zlen sh) (concat rd) -> in_box (l ++ [z]) sh ->
  forall g, In g rd -> group_composes sh (int_chain l) g.
Proof.
  intros Hst Ha Hi g Hg p ix r E T1 T2 a Hin. apply int_chain_split in E. destruct E as (l1 & y & l2 & -> & -> & ->).
  apply int_touches in T1. destruct T1 as (b & Hb & Hb1).
  assert (N : forall c, In c g -> 0 <= c <= zlen l1).
  { intros c Hc. assert (Rc : 0 <= c < zlen sh).
    { apply (proj1 (Forall_forall _ _) Ha). apply in_concat. eauto. }
    destruct (Z_le_gt_dec c (zlen l1)) as [L|L]; [lia|]. exfalso. apply T2.
    replace (int_chain l1 ++ [XItem (IInt y)]) with (int_chain (l1 ++ [y])) by (unfold int_chain; now rewrite map_app).
    apply int_touches. exists c. split; [exact Hc|]. rewrite zlen_app. cbn. lia. }
  pose proof N as N0. assert (b = zlen l1) as -> by (specialize (N b Hb); lia).
  rewrite <- !app_assoc in Hi. pose proof Hi as Hi0.
  destruct (in_box_app_inv _ _ _ Hi) as (s1 & s2 & E & B1 & B2).
  rewrite E, int_start by exact B1. specialize (N a Hin).
  destruct (Z.eq_dec a (zlen l1)) as [->|Hne]; [apply znth_zeros; lia|].
  destruct (Hst g a (zlen l1) Hg Hin Hb) as [Hlast|H1]; [lia| |].
  - exfalso. apply N0 in Hlast. apply in_box_zlen in Hi0. unfold zlen in *. repeat rewrite app_length in Hi0.
    cbn [length] in Hi0. repeat rewrite app_length in Hi0. cbn [length] in Hi0. lia.
  - rewrite znth_app1 by lia. rewrite <- (znth_app1 a l1 (y :: l2 ++ [z])) by lia.
    pose proof (in_box_znth _ _ a Hi0 ltac:(lia)) as R. cbn [app] in R |- *. lia.
Qed.

Lemma dm_gen_rank is_buffer fo h src a dims part s h' :
  dm_fromobject_gen is_buffer fo h src a dims part = Ok (s, h') -> shape_of s <> [].
Proof.
  unfold dm_fromobject_gen. intros H.
  apply bind_ok in H. destruct H as (? & _ & H). apply bind_ok in H. destruct H as (u & Hm & H).
  apply bind_ok in H. destruct H as (? & _ & H). apply bind_ok in H. destruct H as ([[? ?] ?] & _ & H).
  apply bind_ok in H. destruct H as ([st h1] & _ & H). apply bind_ok in H. destruct H as (? & _ & H).
  apply bind_ok in H. destruct H as (d & E & H). injection H as <- <-.
  unfold mk_dm in E. destruct (cut _ _) as [|g0 gs]; [discriminate|].
  apply bind_ok in E. destruct E as (? & _ & E). apply bind_ok in E. destruct E as ([[? ?] ?] & _ & E).
  injection E as <-. cbn [shape_of]. unfold assert_ in Hm. intros En. rewrite En in Hm.
  change (zlen []) with 0 in Hm.
  match type of Hm with context [zlen ?p + 1] => pose proof (zlen_nonneg p) as N; set (k := zlen p) in * end.
  replace (k + 1 <=? 0) with false in Hm by lia. discriminate.
Qed.

Lemma built_rank h h1 s : built_dm h h1 s -> shape_of s <> [].
Proof.
  intros [v sh u dimensions partitioning c s' h' _ _ _ _ _ E|t u dimensions partitioning c s' h' _ _ _ _ _ E];
    unfold as_DM in *; destruct c; cbn [dm_fromobject] in E; eapply dm_gen_rank; exact E.
Qed.

Lemma dm_walks h h0 h1 sh rd rsh rs ro data f i :
  let d := SDM sh rd rsh rs ro data in
  built_dm h0 h1 d -> not_dm data -> repr h d f -> stepwise sh rd -> in_box i sh ->
  nested_walk h (NSto d) i = Ok (f i).
Proof.
  intros d Hb Hnd Hr Hst Hi. pose proof (built_rank _ _ _ Hb) as Hne. cbn [d shape_of] in Hne.
  destruct (built_form _ _ _ _ _ _ _ _ Hb) as (Hp & Hperm & -> & -> & _).
  pose proof Hr as (g & Hd & Hdm & Hf).
  assert (Hni : i <> []) by (intros ->; inversion Hi as [E|]; congruence).
  rewrite (split_last i Hni) in Hi |- *. set (l := removelast i) in *. set (z := last i 0) in *. clearbody l z.
  pose proof (stepwise_composes sh rd l z Hst (perm_axes _ _ Hperm) Hi) as Hg.
  pose proof Hi as Hi0. destruct (in_box_app_inv _ _ _ Hi) as (s1 & s2 & E & B1 & B2).
  inversion B2 as [|? n ? ? Hz B3]; subst. inversion B3; subst.
  assert (Hok : chain_ok (int_chain l) (s1 ++ [n])) by (apply int_chain_ok; auto; discriminate).
  destruct (getitems_dm (int_chain l) h _ _ _ _ _ data g Hd Hnd Hdm Hok) as (s' & h' & G & E2 & _ & _ & place & Hr' & Hpl).
  unfold d. rewrite (walk_chain l h _ s' h' [z] G).
  rewrite int_chain_shape, (in_box_len _ _ B1), skipn_app, skipn_all, Nat.sub_diag in E2, Hpl. cbn in E2, Hpl.
  rewrite (walk_last h' s' _ z n Hr' E2 Hz). cbn beta. rewrite (Hf _ Hi0). do 2 f_equal.
  destruct (Hpl [z]) as [_ C]; [exact B2|]. rewrite int_chain_source in C by auto. apply cmp_eq in C. apply C.
  now apply goods_composes; [| |apply perm_axes|].
Qed.

Lemma one_by_one_walks h s : one_by_one h s -> forall i, in_box i (shape_of s) ->
  exists x, nested_walk h (NSto s) i = Ok x /\ get_elem h s i = Ok x.
Proof.
  intros [b [f Hr]|s' [f Hr] Hne Hpl|h0 h1 sh rd rsh rs ro data Hb Hnd [f Hr] Hst] i Hi; exists (f i);
    (split; [|now apply repr_get]).
  - apply in_box_1 in Hi. destruct Hi as (z & -> & Hz). exact (walk_last h (SBuffer b) f z _ Hr eq_refl Hz).
  - now apply plain_walks.
  - eapply dm_walks; eassumption.
Qed.

Lemma walk_value v : forall h i, nested_walk h (NVal v) i = seq_get v i.
Proof.
  intros h i. revert v. induction i as [|z i IH]; intros v; cbn [nested_walk seq_get]; [reflexivity|].
  destruct v; try reflexivity. destruct (pyget l z); cbn [bind]; auto.
Qed.

Lemma nested_walks h q : forall sh v i, listed h q v -> arrays (one_by_one h) q -> regular sh v -> in_box i sh ->
  nested_walk h q i = Ok (nested_elem v i).
Proof.
  induction q as [w|s|l IH] using nested_ind'; intros sh v i Hl Ha Hr Hi.
  - cbn [listed] in Hl. subst w. rewrite walk_value. now destruct (regular_get sh v i Hr Hi).
  - cbn [listed arrays] in *. destruct Hl as [Hr' Hx].
    assert (sh = shape_of s) as -> by (rewrite <- (regular_shape _ _ Hr); now apply regular_shape).
    destruct (Hx i Hi) as (x & Ex & Gx). destruct (one_by_one_walks h s Ha i Hi) as (y & Ey & Gy).
    rewrite Ey. f_equal. unfold nested_elem. rewrite Ex. congruence.
  - apply listed_seq in Hl. destruct Hl as (vs & -> & Hl). apply arrays_seq in Ha.
    destruct sh as [|n sh]; cbn [regular] in Hr; [contradiction|]. destruct Hr as (Hn & _ & Hf).
    inversion Hi as [|z ? i' ? Hz Hi']; subst. cbn [nested_walk].
    assert (X : exists x y, pyget l z = Ok x /\ nth_error l (Z.to_nat z) = Some x
                            /\ nth_error vs (Z.to_nat z) = Some y /\ listed h x y).
    { unfold pyget. replace (z <? 0) with false by lia. replace (z <? 0) with false by lia.
      assert (L : (Z.to_nat z < length vs)%nat) by (unfold zlen in Hz; lia).
      clear - Hl L. revert L. generalize (Z.to_nat z) as k. induction Hl as [|x y l vs H1 H2 IH]; intros k L; cbn [length] in L; [lia|].
      destruct k as [|k]; cbn [nth_error]; [eauto 6|]. apply IH. lia. }
    destruct X as (x & y & E1 & E2 & E3 & E4). rewrite E1. cbn [bind].
    rewrite Forall_forall in IH, Ha, Hf. pose proof (nth_error_In _ _ E2) as I2. pose proof (nth_error_In _ _ E3) as I3.
    rewrite (IH x I2 sh y i' E4 (Ha x I2) (Hf y I3) Hi'). f_equal.
    unfold nested_elem. cbn [nested_at]. replace (z <? 0) with false by lia. now rewrite E3.
Qed.

Lemma listed_shape h q : forall sh v, listed h q v -> regular sh v -> nested_shape q = sh.
Proof.
  induction q as [w|s|l IH] using nested_ind'; intros sh v Hl Hr.
  - cbn [listed] in Hl. subst w. now apply regular_shape.
  - destruct Hl as [Hr' _]. rewrite <- (regular_shape _ _ Hr). symmetry. now apply regular_shape.
  - apply listed_seq in Hl. destruct Hl as (vs & -> & Hl).
    destruct sh as [|n sh]; cbn [regular] in Hr; [contradiction|]. destruct Hr as (Hn & Hz & Hf).
    destruct Hl as [|x y l vs H1 H2]; cbn [nested_shape].
    + change (zlen []) with 0 in Hn. subst n. now rewrite Hz.
    + f_equal; [|inversion IH; inversion Hf; subst; eauto]. rewrite <- Hn. unfold zlen. cbn [length].
      f_equal. f_equal. clear - H2. induction H2; cbn [length]; congruence.
Qed.

Lemma collect_ext get get' su u : forall l, (forall i, In i l -> get i = get' i) ->
  collect get su u l = collect get' su u l.
Proof.
  induction l as [|i l IH]; intros H; cbn [collect]; [reflexivity|]. rewrite (H i) by now left.
  destruct (get' i); cbn [bind]; [|reflexivity]. rewrite IH; [reflexivity|]. intros j Hj. apply H. now right.
Qed.

(** The two ways of reading agree on the indices that are used. *)
Lemma nested_flat_seq c h l v a sh : c <> CDM ->
  (match fo_shape a with None => nested_shape (NSeq l) | Some s => s end) = sh ->
  fo_get_shape (SrcSeq v) a = sh ->
  (forall i, in_box i sh -> nested_get h (NSeq l) a i = fo_get h (SrcSeq v) a i) ->
  nested_flat c h (NSeq l) a = flat_fromobject c h (SrcSeq v) a.
Proof.
  intros Hc E1 E2 Hg. cbn [nested_flat]. rewrite E1.
  assert (C : forall su u, collect (nested_get h (NSeq l) a) su u (cart sh) = collect (fo_get h (SrcSeq v) a) su u (cart sh)).
  { intros su u. apply collect_ext. intros i Hi. apply Hg. now apply In_cart. }
  destruct c; try congruence; cbn [flat_fromobject]; unfold buffer_fromobject, strided_fromobject, csr_fromobject,
    coo_fromobject, flatcoo_fromobject, strided_build, buffer_build, coo_build, flatcoo_build, fo_get_unspec;
    rewrite ?E2, ?C; cbn [get_unspecified]; try reflexivity.
  all: destruct (is_default a); reflexivity.
Qed.

(** [gsi] sends the indices of [sh] to indices of [sh0]. *)
Definition sends (sh0 sh : list Z) (gsi : list Z -> res (list Z)) : Prop :=
  forall i, in_box i sh -> exists j, gsi i = Ok j /\ in_box j sh0.

Definition agree (sh0 : list Z) (h : heap) (v : pyval) (fo1 fo2 : heap -> source -> fo_args -> res (storage * heap)) : Prop :=
  forall sh gsi u, sh <> [] -> nonneg sh -> sends sh0 sh gsi ->
    fo1 h (SrcSeq VNone) (FO (Some sh) (Some gsi) u) = fo2 h (SrcSeq v) (FO (Some sh) (Some gsi) u).

Lemma product_in_positive l a : nonneg l -> In a l -> 0 < product l -> 0 < a.
Proof.
  induction l as [|x l IH]; intros Hn Hin Hp; [contradiction|]. inversion Hn as [|? ? Hx Hl]; subst.
  cbn [product fold_right] in Hp. fold (product l) in Hp. assert (0 <= product l).
  { clear - Hl. induction Hl as [|y m Hy Hl IH]; [cbn; lia|]. change (product (y :: m)) with (y * product m). nia. }
  destruct Hin as [<-|Hin]; [nia|]. apply IH; auto. nia.
Qed.

Lemma group_positive sh rd r : nonneg sh -> Permutation (concat rd) (zseq (zlen sh)) ->
  in_box r (group_shape sh rd) -> positive sh.
Proof.
  intros Hn Hperm Hr. apply in_box_positive in Hr. unfold group_shape, positive in *. rewrite Forall_map, Forall_forall in Hr.
  apply Forall_forall. intros n Hin. apply (In_nth _ _ 0) in Hin. destruct Hin as (k & Hk & <-).
  assert (Hc : In (Z.of_nat k) (concat rd)).
  { eapply Permutation_in; [symmetry; exact Hperm|]. apply in_map. apply in_seq. unfold zlen. lia. }
  apply in_concat in Hc. destruct Hc as (g & Hg & Hkg). specialize (Hr g Hg).
  assert (Hax : axes_in (zlen sh) g).
  { pose proof (perm_axes _ _ Hperm) as Ha. unfold axes_in in *. rewrite Forall_forall in *. intros d Hd. apply Ha.
    apply in_concat. eauto. }
  eapply product_in_positive; [| |exact Hr].
  - unfold gather. apply Forall_forall. intros x Hx. apply in_map_iff in Hx. destruct Hx as (d & <- & Hd).
    pose proof (proj1 (Forall_forall _ _) Hax d Hd) as Hd'. cbn beta in Hd'. unfold nonneg in Hn. rewrite Forall_forall in Hn.
    apply Hn. unfold znth. apply nth_In. unfold zlen in Hd'. lia.
  - unfold gather. apply in_map_iff. exists (Z.of_nat k). split; [|exact Hkg]. unfold znth. now rewrite Nat2Z.id.
Qed.

Lemma group_nonneg sh rd : nonneg sh -> axes_in (zlen sh) (concat rd) -> nonneg (group_shape sh rd).
Proof.
  intros Hn Ha. unfold group_shape, nonneg. apply Forall_forall. intros x Hx. apply in_map_iff in Hx.
  destruct Hx as (g & <- & Hg).
  assert (G : nonneg (gather sh g)).
  { unfold gather. apply Forall_forall. intros x Hx. apply in_map_iff in Hx. destruct Hx as (d & <- & Hd).
    assert (Hd' : 0 <= d < zlen sh). { apply (proj1 (Forall_forall _ _) Ha). apply in_concat. eauto. }
    unfold nonneg in Hn. rewrite Forall_forall in Hn. apply Hn. unfold znth. apply nth_In. unfold zlen in Hd'. lia. }
  clear - G. induction G as [|y m Hy Hl IH]; [cbn; lia|]. change (product (y :: m)) with (y * product m). nia.
Qed.

Lemma dm_args_perm ib n dimensions partitioning : 0 <= n -> dm_args ib n dimensions partitioning ->
  Permutation (concat (dm_rdims ib n dimensions partitioning)) (zseq n).
Proof.
  intros Hn Ha. unfold dm_rdims. rewrite concat_cut_partition; [apply (da_dims _ _ _ _ Ha)| |].
  - unfold zlen. rewrite (Permutation_length (da_dims _ _ _ _ Ha)), zseq_length_nat. lia.
  - split; [apply (da_sorted _ _ _ _ Ha)|]. eapply Forall_impl; [|apply (da_range _ _ _ _ Ha)]. cbn. intros; lia.
Qed.

Lemma dm_gen_agree sh0 h v fo1 fo2 ib sh a1 a2 dimensions partitioning :
  agree sh0 h v fo1 fo2 -> nonneg sh -> dm_args ib (zlen sh) dimensions partitioning ->
  fo_get_shape (SrcSeq VNone) a1 = sh -> fo_get_shape (SrcSeq v) a2 = sh ->
  fo_gsi a1 = fo_gsi a2 -> fo_unspec a1 = fo_unspec a2 ->
  sends sh0 sh (fun i => match fo_gsi a2 with None => Ok i | Some f => f i end) ->
  dm_fromobject_gen ib fo1 h (SrcSeq VNone) a1 dimensions partitioning
  = dm_fromobject_gen ib fo2 h (SrcSeq v) a2 dimensions partitioning.
Proof.
  intros Hag Hn Ha E1 E2 E3 E4 Hs. unfold dm_fromobject_gen. rewrite E1, E2, E3, E4.
  fold (dm_dims (zlen sh) dimensions). fold (dm_part ib (zlen sh) partitioning).
  destruct (assert_ _); cbn [bind]; [|reflexivity]. destruct (assert_ _); cbn [bind]; [|reflexivity].
  fold (dm_rdims ib (zlen sh) dimensions partitioning).
  destruct (assert_ _); cbn [bind]; [|reflexivity].
  set (rd := dm_rdims ib (zlen sh) dimensions partitioning).
  assert (Hperm : Permutation (concat rd) (zseq (zlen sh))) by (apply dm_args_perm; [apply zlen_nonneg|exact Ha]).
  rewrite make_reduction_ok by now apply perm_axes. cbn [bind].
  rewrite (Hag (group_shape sh rd)); [reflexivity| | |].
  - unfold rd, group_shape, dm_rdims. intros E. apply (f_equal (@length Z)) in E. rewrite map_length, cut_length in E by discriminate.
    cbn [app length] in E. rewrite app_length in E. cbn [length] in E. lia.
  - apply group_nonneg; [exact Hn|now apply perm_axes].
  - intros r Hr. destruct (reduce_promote sh rd r (group_positive _ _ _ Hn Hperm Hr) Hperm Hr) as (i & Ei & Hi & _).
    rewrite map_zero, Ei. cbn [bind]. apply Hs. exact Hi.
Qed.

Lemma nested_flat_agree h l v sh0 c : c <> CDM -> listed h (NSeq l) v -> arrays (one_by_one h) (NSeq l) -> regular sh0 v ->
  agree sh0 h v (fun h _ a => nested_flat c h (NSeq l) a) (flat_fromobject c).
Proof.
  intros Hc Hl Ha Hr sh gsi u _ _ Hs. apply (nested_flat_seq c h l v _ sh Hc); [reflexivity|reflexivity|].
  intros i Hi. unfold nested_get, fo_get. cbn [fo_gsi]. destruct (Hs i Hi) as (j & -> & Hj). cbn [bind nested_value].
  rewrite (nested_walks h (NSeq l) sh0 v j Hl Ha Hr Hj). symmetry. now apply (regular_value h sh0).
Qed.

Lemma seq_rank h l v sh : listed h (NSeq l) v -> regular sh v -> sh <> [].
Proof. intros Hl Hr ->. apply listed_seq in Hl. destruct Hl as (vs & -> & _). exact Hr. Qed.

Lemma nested_dm_seq h l v sh u dimensions partitioning c :
  listed h (NSeq l) v -> arrays (one_by_one h) (NSeq l) -> regular sh v ->
  mapping_ok (zlen sh) dimensions partitioning ->
  nested_dm h (NSeq l) (fo_unspecified u) dimensions partitioning c
  = dm_fromobject h (SrcSeq v) (fo_unspecified u) dimensions partitioning c.
Proof.
  intros Hl Ha Hr [Hn Hd Hpart]. pose proof (regular_nonneg sh v Hr) as Hnn.
  assert (E1 : nested_shape (NSeq l) = sh) by (eapply listed_shape; eassumption).
  assert (E2 : fo_get_shape (SrcSeq v) (fo_unspecified u) = sh) by now apply regular_shape.
  assert (Hs : sends sh sh (fun i => match fo_gsi (fo_unspecified u) with None => Ok i | Some f => f i end)).
  { intros i Hi. exists i. split; [reflexivity|exact Hi]. }
  assert (Hdm : forall ib, dm_args ib (zlen sh) dimensions partitioning) by (intros ib; now apply dm_args_strict).
  unfold nested_dm. cbn [fo_shape fo_unspecified fo_gsi fo_unspec]. rewrite E1.
  assert (G : forall ib c, c <> CDM ->
    dm_fromobject_gen ib (fun h _ a => nested_flat c h (NSeq l) a) h (SrcSeq VNone) (FO (Some sh) None u) dimensions partitioning
    = dm_fromobject_gen ib (flat_fromobject c) h (SrcSeq v) (fo_unspecified u) dimensions partitioning).
  { intros ib c' Hc. apply (dm_gen_agree sh h v _ _ ib sh); auto. now apply nested_flat_agree. }
  destruct c; cbn [dm_fromobject]; try (apply G; discriminate).
  apply (dm_gen_agree sh h v _ _ false sh); auto.
  intros sh' gsi u' Hne Hn' Hs'. apply (dm_gen_agree sh h v _ _ false sh'); auto.
  - apply nested_flat_agree; auto. discriminate.
  - apply dm_args_default. destruct sh'; [congruence|]. rewrite zlen_cons. pose proof (zlen_nonneg sh'). lia.
Qed.

(** * C83 *)

(** A list that contains arrays is converted to the same array as the nested list
    in which each of them is replaced by the list of its elements. *)
Theorem C83_lists_of_arrays_partial : forall c h l v sh u,
  listed h (NSeq l) v -> arrays (one_by_one h) (NSeq l) -> regular sh v ->
  nested_fromobject c h (NSeq l) u = fromobject c h (SrcSeq v) (fo_unspecified u).
Proof.
  intros c h l v sh u Hl Ha Hr. pose proof (seq_rank h l v sh Hl Hr) as Hne.
  assert (Hflat : forall c, c <> CDM -> nested_flat c h (NSeq l) (fo_unspecified u) = flat_fromobject c h (SrcSeq v) (fo_unspecified u)).
  { intros c' Hc. apply (nested_flat_seq c' h l v _ sh Hc).
    - cbn [fo_shape fo_unspecified]. eapply listed_shape; eassumption.
    - now apply regular_shape.
    - intros i Hi. unfold nested_get, fo_get. cbn [fo_gsi fo_unspecified nested_value].
      rewrite (nested_walks h (NSeq l) sh v i Hl Ha Hr Hi). symmetry. now apply (regular_value h sh). }
  destruct c; unfold nested_fromobject, fromobject; try (apply Hflat; discriminate).
  apply (nested_dm_seq h l v sh); auto. constructor; try discriminate.
  destruct sh; [congruence|]. rewrite zlen_cons. pose proof (zlen_nonneg sh). lia.
Qed.
Print Assumptions C83_lists_of_arrays_partial.

(** The same with a mapping of the axes given to DM.fromobject. *)
Theorem C83_lists_of_arrays_dm_partial : forall h l v sh u dimensions partitioning c,
  listed h (NSeq l) v -> arrays (one_by_one h) (NSeq l) -> regular sh v ->
  mapping_ok (zlen sh) dimensions partitioning ->
  nested_dm h (NSeq l) (fo_unspecified u) dimensions partitioning c
  = dm_fromobject h (SrcSeq v) (fo_unspecified u) dimensions partitioning c.
Proof. exact nested_dm_seq. Qed.
Print Assumptions C83_lists_of_arrays_dm_partial.

(** Comparison with such a list is comparison with the nested list. *)
Theorem C83_equal_partial : forall h s l v sh,
  listed h (NSeq l) v -> arrays (one_by_one h) (NSeq l) -> regular sh v ->
  nested_equal h s (NSeq l) = equal h s (SrcSeq v).
Proof.
  intros h s l v sh Hl Ha Hr. cbn [nested_equal]. unfold equal.
  assert (Hflat : forall c, c <> CDM -> nested_flat c h (NSeq l) (fo_unspecified (Some (unspecified_of s)))
     = flat_fromobject c h (SrcSeq v) (fo_unspecified (Some (unspecified_of s)))).
  { intros c Hc. apply (nested_flat_seq c h l v _ sh Hc).
    - cbn [fo_shape fo_unspecified]. eapply listed_shape; eassumption.
    - now apply regular_shape.
    - intros i Hi. unfold nested_get, fo_get. cbn [fo_gsi fo_unspecified nested_value].
      rewrite (nested_walks h (NSeq l) sh v i Hl Ha Hr Hi). symmetry. now apply (regular_value h sh). }
  destruct s; rewrite Hflat by discriminate; reflexivity.
Qed.
Print Assumptions C83_equal_partial.

(** A regular nested list with given elements. *)
Lemma tabulate : forall sh (f : list Z -> pyval), positive sh ->
  (forall i, in_box i sh -> match f i with VSeq _ => False | _ => True end) ->
  exists v, regular sh v /\ forall i, in_box i sh -> nested_at v i = Some (f i).
Proof.
  induction sh as [|n sh IH]; intros f Hp Hf.
  - exists (f []). split; [exact (Hf [] (Forall2_nil _))|]. intros i Hi. inversion Hi; subst. reflexivity.
  - inversion Hp as [|? ? Hn Hp']; subst.
    assert (X : forall k, (k <= Z.to_nat n)%nat -> exists l, length l = k /\ forall j, (j < k)%nat ->
       exists w, nth_error l j = Some w /\ regular sh w /\ forall i, in_box i sh -> nested_at w i = Some (f (Z.of_nat j :: i))).
    { induction k as [|k IHk]; intros Hk; [exists []; split; [reflexivity|lia]|].
      destruct IHk as (l & Hl & Hw); [lia|].
      destruct (IH (fun i => f (Z.of_nat k :: i)) Hp') as (w & W1 & W2).
      { intros i Hi. apply Hf. constructor; [lia|exact Hi]. }
      exists (l ++ [w]). split; [rewrite app_length; cbn; lia|]. intros j Hj.
      destruct (Nat.eq_dec j k) as [->|Hne].
      - exists w. split; [|split; auto]. rewrite nth_error_app2 by lia. now rewrite Hl, Nat.sub_diag.
      - destruct (Hw j ltac:(lia)) as (w' & A & B & C). exists w'. split; [|split; auto].
        rewrite nth_error_app1 by lia. exact A. }
    destruct (X (Z.to_nat n) (Nat.le_refl _)) as (l & Hl & Hw). exists (VSeq l). split.
    + cbn [regular]. split; [unfold zlen; lia|]. split; [lia|]. apply Forall_forall. intros w Hin.
      apply In_nth_error in Hin. destruct Hin as (j & Hj). assert (Lj : (j < length l)%nat) by (apply nth_error_Some; congruence).
      destruct (Hw j ltac:(lia)) as (w' & A & B & _). congruence.
    + intros i Hi. inversion Hi as [|x ? i' ? Hx Hi']; subst. cbn [nested_at]. replace (x <? 0) with false by lia.
      destruct (Hw (Z.to_nat x) ltac:(lia)) as (w & -> & _ & C). rewrite C by exact Hi'. now rewrite Z2Nat.id by lia.
Qed.

(** The element of the list is not itself a list. *)
Definition scalar (x : pyval) : Prop := match x with VSeq _ => False | _ => True end.

(** Arrays of the same shape, stacked: element [k, i] of [X.fromobject([a, b, ...])]
    is element [i] of the array at position [k]. *)
Theorem C83_stacked_partial : forall c h ss sh u,
  ss <> [] -> positive sh -> sh <> [] -> class_rank c (zlen ss :: sh) ->
  Forall (fun t => one_by_one h t /\ shape_of t = sh) ss ->
  (forall t i x, In t ss -> in_box i sh -> get_elem h t i = Ok x -> scalar x) ->
  let u' := chosen VNone u in
  (c = CCSR -> exists t i x, In t ss /\ in_box i sh /\ get_elem h t i = Ok x /\ x <> VNone /\ x <> u') ->
  exists s h', nested_fromobject c h (NSeq (map NSto ss)) u = Ok (s, h')
    /\ is_class c s /\ shape_of s = zlen ss :: sh /\ unspecified_of s = u' /\ valid h' s
    /\ forall k t i, nth_error ss k = Some t -> in_box i sh ->
         exists x, get_elem h t i = Ok x
           /\ (x = VNone -> get_elem h' s (Z.of_nat k :: i) = Ok u')
           /\ (x <> VNone -> get_elem h' s (Z.of_nat k :: i) = Ok x).
Proof.
  intros c h ss sh u Hne Hp Hsh Hc Hss Hsc u' Hcsr.
  assert (X : exists vs, Forall2 (fun t v => regular sh v /\ forall i, in_box i sh ->
                 exists x, nested_at v i = Some x /\ get_elem h t i = Ok x) ss vs).
  { clear Hne Hc Hcsr. induction ss as [|t ss IH]; [exists []; constructor|]. inversion Hss as [|? ? [H1 H2] H3]; subst.
    destruct IH as (vs & Hvs); [exact H3|intros t' i x Hin; apply Hsc; now right|].
    destruct (tabulate (shape_of t) (fun i => match get_elem h t i with Ok x => x | Raise _ => VNone end) Hp) as (v & V1 & V2).
    { intros i Hi. destruct (get_elem h t i) as [x|] eqn:E; [|exact I].
      specialize (Hsc t i x (or_introl eq_refl) Hi E). destruct x; auto. }
    exists (v :: vs). constructor; [|exact Hvs]. split; [exact V1|]. intros i Hi.
    destruct (one_by_one_walks h t H1 i Hi) as (x & _ & Gx). exists x. split; [|exact Gx]. rewrite (V2 i Hi), Gx. reflexivity. }
  destruct X as (vs & Hvs).
  assert (Hl : listed h (NSeq (map NSto ss)) (VSeq vs)).
  { apply listed_seq. exists vs. split; [reflexivity|]. clear - Hvs Hss. induction Hvs as [|t v ss vs [H1 H2] H3 IH]; cbn [map]; constructor.
    - inversion Hss as [|? ? [_ E] _]; subst. cbn [listed]. split; assumption.
    - apply IH. now inversion Hss. }
  assert (Ha : arrays (one_by_one h) (NSeq (map NSto ss))).
  { apply arrays_seq. apply Forall_map. eapply Forall_impl; [|exact Hss]. cbn beta. intros t [H _]. exact H. }
  assert (Hlen : zlen vs = zlen ss) by (unfold zlen; f_equal; clear - Hvs; induction Hvs; cbn [length]; congruence).
  assert (Hr : regular (zlen ss :: sh) (VSeq vs)).
  { cbn [regular]. split; [exact Hlen|]. split.
    - intros Hz. destruct ss; [congruence|]. rewrite zlen_cons in Hz. pose proof (zlen_nonneg ss). lia.
    - clear - Hvs. induction Hvs as [|t v ss vs [H1 H2] H3 IH]; constructor; auto. }
  assert (Hat : forall k t, nth_error ss k = Some t -> exists v, nth_error vs k = Some v /\
     forall i, in_box i sh -> exists x, nested_at v i = Some x /\ get_elem h t i = Ok x).
  { clear - Hvs. induction Hvs as [|t v ss vs [H1 H2] H3 IH]; intros [|k] t' E; cbn [nth_error] in *; try discriminate; eauto.
    injection E as <-. eauto. }
  assert (Hat' : forall k t i, nth_error ss k = Some t -> in_box i sh -> exists x,
      in_box (Z.of_nat k :: i) (zlen ss :: sh) /\ nested_at (VSeq vs) (Z.of_nat k :: i) = Some x /\ get_elem h t i = Ok x).
  { intros k t i E Hi. destruct (Hat k t E) as (v & Ev & Hv). destruct (Hv i Hi) as (x & Ex & Gx). exists x. split; [|split; [|exact Gx]].
    - constructor; [|exact Hi]. assert (k < length ss)%nat by (apply nth_error_Some; congruence). unfold zlen. lia.
    - cbn [nested_at]. replace (Z.of_nat k <? 0) with false by lia. now rewrite Nat2Z.id, Ev. }
  destruct (C22_fromobject_elements c h (VSeq vs) (zlen ss :: sh) u Hr Hc) as (s & h' & E1 & E2 & E3 & E4 & E5 & E6).
  { intros Ec. destruct (Hcsr Ec) as (t & i & x & Hin & Hi & Gx & Hx1 & Hx2). apply In_nth_error in Hin. destruct Hin as (k & Hk).
    destruct (Hat' k t i Hk Hi) as (y & B & Ey & Gy). exists (Z.of_nat k :: i), y. split; [exact B|]. split; [exact Ey|].
    rewrite Gx in Gy. injection Gy as <-. auto. }
  exists s, h'. split; [rewrite (C83_lists_of_arrays_partial c h _ _ _ u Hl Ha Hr); exact E1|].
  split; [exact E2|]. split; [exact E3|]. split; [exact E4|]. split; [exact E5|].
  intros k t i Hk Hi. destruct (Hat' k t i Hk Hi) as (x & B & Ex & Gx). exists x. split; [exact Gx|].
  destruct (E6 _ B) as (y & Ey & Y1 & Y2). rewrite Ex in Ey. injection Ey as <-. auto.
Qed.
Print Assumptions C83_stacked_partial.

(** Reading a DM array step by step gives one of its elements. *)
Lemma dm_walk_some h h0 h1 sh rd rsh rs ro data f i :
  let d := SDM sh rd rsh rs ro data in
  built_dm h0 h1 d -> not_dm data -> repr h d f -> in_box i sh ->
  exists j, in_box j sh /\ nested_walk h (NSto d) i = Ok (f j)
    /\ (j = i -> forall g, In g rd -> group_composes sh (int_chain (removelast i)) g).
Proof.
  intros d Hb Hnd Hr Hi. pose proof (built_rank _ _ _ Hb) as Hne. cbn [d shape_of] in Hne.
  destruct (built_form _ _ _ _ _ _ _ _ Hb) as (Hp & Hperm & -> & -> & Hsd).
  pose proof Hr as (g & Hd & Hdm & Hf).
  assert (Hni : i <> []) by (intros ->; inversion Hi as [E|]; congruence).
  rewrite (split_last i Hni) in Hi |- *. rewrite removelast_last.
  set (l := removelast i) in *. set (z := last i 0) in *. clearbody l z.
  pose proof Hi as Hi0. destruct (in_box_app_inv _ _ _ Hi) as (s1 & s2 & E & B1 & B2).
  inversion B2 as [|? n ? ? Hz B3]; subst. inversion B3; subst.
  assert (Hok : chain_ok (int_chain l) (s1 ++ [n])) by (apply int_chain_ok; auto; discriminate).
  destruct (getitems_dm (int_chain l) h _ _ _ _ _ data g Hd Hnd Hdm Hok) as (s' & h' & G & E2 & _ & _ & place & Hr' & Hpl).
  unfold d. rewrite (walk_chain l h _ s' h' [z] G).
  rewrite int_chain_shape, (in_box_len _ _ B1), skipn_app, skipn_all, Nat.sub_diag in E2, Hpl. cbn in E2, Hpl.
  rewrite (walk_last h' s' _ z n Hr' E2 Hz). cbn beta.
  destruct (Hpl [z]) as [B C]; [exact B2|]. rewrite int_chain_source in C by auto.
  rewrite Hsd in B. destruct (reduce_promote (s1 ++ [n]) rd (place [z]) Hp Hperm B) as (j & _ & Hj & Ej).
  rewrite <- dm_index_group in Ej. exists j. split; [exact Hj|]. split; [now rewrite (Hf j Hj), Ej|].
  intros ->. apply (goods_composes (s1 ++ [n]) (int_chain l) Hp Hok rd (perm_axes _ _ Hperm)). apply (cmp_eq _ _ _ C). now rewrite Ej.
Qed.

Lemma greatest (g : list Z) : g <> [] -> exists m, In m g /\ forall c, In c g -> c <= m.
Proof.
  induction g as [|x g IH]; [congruence|]. intros _. destruct g as [|y g].
  - exists x. split; [now left|]. intros c [->|[]]. lia.
  - destruct IH as (m & Hm & Hle); [discriminate|]. destruct (Z_le_gt_dec x m) as [L|L].
    + exists m. split; [now right|]. intros c [->|Hc]; auto.
    + exists x. split; [now left|]. intros c [->|Hc]; [lia|]. specialize (Hle c Hc). lia.
Qed.

Lemma unit_index sh a : positive sh -> 0 <= a < zlen sh -> znth a sh <> 1 ->
  exists i, in_box i sh /\ znth a i = 1.
Proof.
  intros Hp Ha Hn. assert (Hl : (Z.to_nat a < length sh)%nat) by (unfold zlen in Ha; lia). unfold znth in *. clear Ha.
  revert sh Hp Hl Hn. induction (Z.to_nat a) as [|k IH]; intros sh Hp Hl Hn; (destruct sh as [|n sh]; cbn [length] in Hl; [lia|]);
    inversion Hp as [|? ? P1 P2]; subst; cbn [nth] in Hn |- *.
  - exists (1 :: map (fun _ => 0) sh). split; [|reflexivity]. constructor; [lia|]. clear - P2. induction P2; cbn [map]; constructor; auto. lia.
  - destruct (IH sh P2 ltac:(lia) Hn) as (i & Hi & E). exists (0 :: i). split; [|exact E]. constructor; [lia|exact Hi].
Qed.

Lemma composes_stepwise sh rd : positive sh -> axes_in (zlen sh) (concat rd) ->
  (forall i, in_box i sh -> forall g, In g rd -> group_composes sh (int_chain (removelast i)) g) -> stepwise sh rd.
Proof.
  intros Hp Ha Hc g a b Hg Hina Hinb Hab.
  assert (R : forall c, In c g -> 0 <= c < zlen sh).
  { intros c Hin. apply (proj1 (Forall_forall _ _) Ha). apply in_concat. eauto. }
  destruct (greatest g) as (m & Hm & Hle); [intros ->; contradiction|].
  pose proof (R m Hm) as Rm. destruct (Z.eq_dec m (zlen sh - 1)) as [->|Hlast]; [now left|right].
  destruct (Z.eq_dec (znth a sh) 1) as [E|Hn]; [exact E|exfalso].
  destruct (unit_index sh a Hp (R a Hina) Hn) as (i & Hi & Ei). pose proof (Hc i Hi g Hg) as H.
  assert (Hni : i <> []).
  { intros ->. inversion Hi; subst. change (zlen []) with 0 in Rm. lia. }
  pose proof (split_last i Hni) as Es. set (l := removelast i) in *. set (z := last i 0) in *. clearbody l z.
  assert (Ll : zlen l = zlen sh - 1).
  { apply in_box_zlen in Hi. rewrite Es, zlen_app in Hi. change (zlen [z]) with 1 in Hi. lia. }
  assert (X : exists l1 y l2, l = l1 ++ y :: l2 /\ zlen l1 = m).
  { exists (firstn (Z.to_nat m) l). destruct (skipn (Z.to_nat m) l) as [|y l2] eqn:E.
    - apply (f_equal (@length Z)) in E. rewrite skipn_length in E. cbn [length] in E. unfold zlen in Ll, Rm, Hlast. lia.
    - exists y, l2. split; [rewrite <- E; symmetry; apply firstn_skipn|]. unfold zlen in *. rewrite firstn_length. lia. }
  destruct X as (l1 & y & l2 & E & El1). specialize (H (int_chain l1) (XItem (IInt y)) (int_chain l2)).
  rewrite Es, E in Hi. rewrite <- app_assoc in Hi. destruct (in_box_app_inv _ _ _ Hi) as (s1 & s2 & Esh & B1 & B2).
  assert (Z0 : znth a (chain_start (int_chain l1) sh) = 0).
  { apply H; auto.
    - rewrite E. unfold int_chain. now rewrite map_app.
    - apply int_touches. exists m. split; [exact Hm|]. lia.
    - intros T. replace (int_chain l1 ++ [XItem (IInt y)]) with (int_chain (l1 ++ [y])) in T by (unfold int_chain; now rewrite map_app).
      apply int_touches in T. destruct T as (c & Hcg & Hc1). rewrite zlen_app in Hc1. change (zlen [y]) with 1 in Hc1.
      specialize (Hle c Hcg). lia. }
  pose proof (Hle b Hinb). rewrite Esh, int_start in Z0 by exact B1. pose proof (R a Hina). rewrite znth_app1 in Z0 by lia.
  rewrite Es, E, <- app_assoc, znth_app1 in Ei by lia. lia.
Qed.

(** A DM array with pairwise different elements, as the only item of a list: every
    element is right exactly when its groups of axes meet [stepwise]. *)
Theorem C83_dm_in_list_exact : forall h h0 h1 sh rd rsh rs ro data,
  let d := SDM sh rd rsh rs ro data in
  built_dm h0 h1 d -> not_dm data -> valid h d ->
  (forall i j, in_box i sh -> in_box j sh -> get_elem h d i = get_elem h d j -> i = j) ->
  (forall i x, in_box i sh -> get_elem h d i = Ok x -> scalar x) ->
  exists s h', nested_fromobject CStrided h (NSeq [NSto d]) None = Ok (s, h') /\ shape_of s = 1 :: sh
    /\ ((forall i, in_box i sh -> get_elem h' s (0 :: i) = get_elem h d i) <-> stepwise sh rd).
Proof.
  intros h h0 h1 sh rd rsh rs ro data d Hb Hnd [f Hr] Hinj Hsc.
  destruct (built_form _ _ _ _ _ _ _ _ Hb) as (Hp & Hperm & _).
  pose proof (fun i => dm_walk_some h h0 h1 sh rd rsh rs ro data f i Hb Hnd Hr) as W. fold d in W.
  set (w := fun i => match nested_walk h (NSto d) (tl i) with Ok x => x | Raise _ => VNone end).
  assert (Hp1 : positive (1 :: sh)) by (constructor; [lia|exact Hp]).
  destruct (tabulate (1 :: sh) w Hp1) as (v & V1 & V2).
  { intros i Hi. inversion Hi as [|x ? i' ? Hx Hi']; subst. unfold w. cbn [tl].
    destruct (W i' Hi') as (j & Hj & -> & _). specialize (Hsc j (f j) Hj (repr_get h d f j Hr Hj)). destruct (f j); auto. }
  assert (Hw : forall i, in_box i sh -> exists j, in_box j sh /\ nested_walk h (NSto d) i = Ok (f j) /\ w (0 :: i) = f j
     /\ (j = i -> forall g, In g rd -> group_composes sh (int_chain (removelast i)) g)).
  { intros i Hi. destruct (W i Hi) as (j & Hj & E & C). exists j. split; [exact Hj|]. split; [exact E|]. split; [|exact C].
    unfold w. cbn [tl]. now rewrite E. }
  assert (Ef : nested_fromobject CStrided h (NSeq [NSto d]) None = fromobject CStrided h (SrcSeq v) (fo_unspecified None)).
  { cbn [nested_fromobject fromobject]. apply (nested_flat_seq CStrided h [NSto d] v _ (1 :: sh)); [discriminate|reflexivity| |].
    - now apply regular_shape.
    - intros i Hi. unfold nested_get, fo_get. cbn [fo_gsi fo_unspecified nested_value].
      rewrite (regular_value h (1 :: sh) v i V1 Hi). unfold nested_elem. rewrite (V2 i Hi).
      inversion Hi as [|x ? i' ? Hx Hi']; subst. assert (x = 0) as -> by lia. destruct (Hw i' Hi') as (j & _ & E & -> & _).
      cbn [nested_walk]. unfold pyget. cbn. exact E. }
  destruct (C22_fromobject_elements CStrided h v (1 :: sh) None V1 I) as (s & h' & E1 & _ & E3 & _ & _ & E6); [discriminate|].
  exists s, h'. split; [rewrite Ef; exact E1|]. split; [exact E3|].
  assert (G : forall i, in_box i sh -> get_elem h' s (0 :: i) = Ok (w (0 :: i))).
  { intros i Hi. assert (B : in_box (0 :: i) (1 :: sh)) by (constructor; [lia|exact Hi]).
    destruct (E6 _ B) as (x & Ex & X1 & X2). rewrite (V2 _ B) in Ex. injection Ex as <-.
    destruct (w (0 :: i)) eqn:Ew; [rewrite X1 by reflexivity; reflexivity|..]; apply X2; discriminate. }
  split.
  - intros H. apply composes_stepwise; [exact Hp|now apply perm_axes|]. intros i Hi. destruct (Hw i Hi) as (j & Hj & _ & Ew & C).
    apply C. apply Hinj; auto. rewrite (repr_get h d f j Hr Hj), <- Ew, <- G by exact Hi. now apply H.
  - intros Hst i Hi. rewrite (G i Hi), (repr_get h d f i Hr Hi). f_equal. destruct (Hw i Hi) as (j & Hj & E & -> & _).
    pose proof (dm_walks h h0 h1 sh rd rsh rs ro data f i Hb Hnd Hr Hst Hi) as E'. fold d in E'. rewrite E in E'. now injection E'.
Qed.
Print Assumptions C83_dm_in_list_exact.

(** The full property fails.  A DM array of shape (2, 2, 2) with the default mapping,
    in a list: the elements of [d[1]] come out as those of [d[0]]. *)
Definition dm_2x2x2 : res (storage * heap) :=
  dm_fromobject [] (SrcSeq nested_2x2x2) (fo_unspecified None) None None CStrided.
Theorem C83_dm_in_list_refuted : exists d h, dm_2x2x2 = Ok (d, h) /\ valid h d
  /\ exists s h', nested_fromobject CStrided h (NSeq [NSto d]) None = Ok (s, h') /\ shape_of s = [1; 2; 2; 2]
     /\ get_elem h d [1; 0; 0] = Ok (VInt 4) /\ get_elem h' s [0; 1; 0; 0] = Ok (VInt 0).
Proof.
  assert (Hr : regular [2; 2; 2] nested_2x2x2) by (cbn; repeat (split || constructor || lia)).
  destruct (C28_dm_elements CStrided [] nested_2x2x2 [2; 2; 2] None None None Hr) as (rd & rsh & rst & ro & d & h & E & _ & _ & Hv & _).
  - repeat constructor; lia.
  - constructor; [cbn; lia|discriminate|discriminate].
  - exact I.
  - discriminate.
  - eexists _, h. split; [exact E|]. split; [exact Hv|]. clear Hv. vm_compute in E. injection E as <- <- <- <- <- <-.
    eexists _, _. split; [vm_compute; reflexivity|]. split; [reflexivity|]. split; vm_compute; reflexivity.
Qed.
Print Assumptions C83_dm_in_list_refuted.

(** Arrays of different lengths in a list are not rejected: the missing elements
    are read from the start of the shorter array. *)
Definition two_arrays : res (storage * storage * heap) :=
  '(a, h1) <- fromobject CStrided [] (SrcSeq (VSeq [VInt 1; VInt 2; VInt 3])) (fo_unspecified None) ;;
  '(b, h2) <- fromobject CStrided h1 (SrcSeq (VSeq [VInt 4; VInt 5])) (fo_unspecified None) ;;
  Ok (a, b, h2).
Theorem C83_ragged_refuted : exists a b h s h', two_arrays = Ok (a, b, h)
  /\ shape_of a = [3] /\ shape_of b = [2]
  /\ nested_fromobject CStrided h (NSeq [NSto a; NSto b]) None = Ok (s, h')
  /\ shape_of s = [2; 3] /\ get_elem h' s [1; 2] = Ok (VInt 4)
  /\ nested_fromobject CStrided h (NSeq [NSto a; NVal (VSeq [VInt 4; VInt 5])]) None = Raise IndexError.
Proof.
  eexists _, _, _, _, _. split; [vm_compute; reflexivity|]. split; [reflexivity|]. split; [reflexivity|].
  split; [vm_compute; reflexivity|]. split; [reflexivity|]. split; vm_compute; reflexivity.
Qed.
Print Assumptions C83_ragged_refuted.

(** A list with a COO array, a Buffer and a list, and the elements it stands for. *)
Definition mixed_list : res (list nested * heap) :=
  '(a, h1) <- fromobject CCOO [] (SrcSeq (VSeq [VInt 0; VInt 7])) (fo_unspecified (Some (VInt 0))) ;;
  '(b, h2) <- fromobject CBuffer h1 (SrcSeq (VSeq [VInt 8; VNone])) (fo_unspecified None) ;;
  Ok ([NSto a; NSto b; NVal (VSeq [VInt 1; VInt 2])], h2).
Definition mixed_value : pyval :=
  VSeq [VSeq [VInt 0; VInt 7]; VSeq [VInt 8; VNone]; VSeq [VInt 1; VInt 2]].
Example C83_mixed_case : exists l h, mixed_list = Ok (l, h)
  /\ listed h (NSeq l) mixed_value /\ arrays (one_by_one h) (NSeq l) /\ regular [3; 2] mixed_value
  /\ (s <- nested_fromobject CStrided h (NSeq l) (Some (VInt 9)) ;; elements (snd s) (fst s))
     = Ok [(KTup [0; 0], VInt 0); (KTup [0; 1], VInt 7); (KTup [1; 0], VInt 8); (KTup [1; 1], VInt 9);
           (KTup [2; 0], VInt 1); (KTup [2; 1], VInt 2)].
Proof.
  destruct (C22_fromobject_elements CCOO [] (VSeq [VInt 0; VInt 7]) [2] (Some (VInt 0))) as (a & h1 & E1 & _ & _ & _ & V1 & _);
    [cbn; repeat (split || constructor || lia)|discriminate|discriminate|].
  destruct (C22_fromobject_elements CBuffer h1 (VSeq [VInt 8; VNone]) [2] None) as (b & h2 & E2 & _ & _ & _ & V2 & _);
    [cbn; repeat (split || constructor || lia)|reflexivity|discriminate|].
  assert (E : mixed_list = Ok ([NSto a; NSto b; NVal (VSeq [VInt 1; VInt 2])], h2)).
  { unfold mixed_list. rewrite E1. cbn [bind]. rewrite E2. reflexivity. }
  assert (V1' : valid h2 a).
  { destruct V1 as [f Hf]. exists f. eapply repr_extends; [|exact Hf]. vm_compute in E1. injection E1 as <- <-.
    vm_compute in E2. injection E2 as <- <-. eexists [_]. reflexivity. }
  vm_compute in E1. injection E1 as <- <-. vm_compute in E2. injection E2 as <- <-.
  eexists _, _. split; [exact E|]. split; [|split; [|split]].
  - assert (B : forall i n, in_box i [n] -> n = 2 -> i = [0] \/ i = [1]).
    { intros i n Hi ->. apply in_box_1 in Hi. destruct Hi as (z & -> & Hz). assert (z = 0 \/ z = 1) as [->| ->] by lia; auto. }
    cbn [listed]. repeat split; try (cbn; lia); try (repeat constructor);
      intros i Hi; (destruct (B i 2 Hi eq_refl) as [->| ->]); eexists; (split; [reflexivity|vm_compute; reflexivity]).
  - cbn [arrays]. split; [apply obo_plain; [exact V1'|discriminate|exact I]|]. split; [apply obo_buffer; exact V2|]. auto.
  - cbn. repeat (split || constructor || lia).
  - vm_compute. reflexivity.
Qed.

(** Mappings of a DM array of shape (2, 2, 2) and of shape (1, 2, 2): the default one
    cannot be read step by step in the first case and can in the second; with the
    groups (0) and (1, 2) both can. *)
Example C83_stepwise_case :
  ~ stepwise [2; 2; 2] [[0; 1]; [2]] /\ stepwise [1; 2; 2] [[0; 1]; [2]] /\ stepwise [2; 2; 2] [[0]; [1; 2]].
Proof.
  split; [|split].
  - intros H. destruct (H [0; 1] 0 1) as [H1|H1]; [cbn; auto|cbn; auto|cbn; auto|lia| |discriminate].
    cbn in H1. lia.
  - intros g a b [<-|[<-|[]]] Ha Hb Hab; cbn in Ha, Hb; [|lia]. right. assert (a = 0) as -> by lia. reflexivity.
  - intros g a b [<-|[<-|[]]] Ha Hb Hab; cbn in Ha, Hb; [lia|]. left. cbn. lia.
Qed.

(** Dimensionality reduction and promotion: reduce_index, promote_index,
    reduction and promotion as mixed-radix numeration on groups of axes. *)
From Coq Require Import Sorting.Sorted Permutation ZifyBool.
From Verif Require Import Py SliceTools Basics Storage Spec SliceFacts CompressFacts.

(** the entries of [l] on the given axes *)
Definition gather (l dims : list Z) : list Z := map (fun d => znth d l) dims.

Lemma gather_length l dims : length (gather l dims) = length dims.
Proof. apply map_length. Qed.

Lemma gather_app l a b : gather l (a ++ b) = gather l a ++ gather l b.
Proof. apply map_app. Qed.

Definition axes_in (n : Z) (dims : list Z) : Prop := Forall (fun d => 0 <= d < n) dims.

(** * Mixed radix digits *)
Fixpoint unravel (r : Z) (sh : list Z) : list Z :=
  match sh with [] => [] | n :: sh' => (r / product sh') mod n :: unravel r sh' end.

Lemma unravel_length r sh : length (unravel r sh) = length sh.
Proof. induction sh; cbn; auto. Qed.

Lemma product_positive sh : positive sh -> 0 < product sh.
Proof. intros H. induction H as [|n sh Hn H IH]; cbn [product]; [lia|]. now apply Z.mul_pos_pos. Qed.

Lemma unravel_in_box r sh : positive sh -> in_box (unravel r sh) sh.
Proof.
  intros H. induction H as [|n sh Hn H IH]; cbn [unravel]; constructor; auto.
  apply Z.mod_pos_bound. lia.
Qed.

Lemma in_box_positive i sh : in_box i sh -> positive sh.
Proof. intros H. induction H; constructor; auto. lia. Qed.

Lemma ravel_range i sh : in_box i sh -> 0 <= zdot i (make_strides sh) < product sh.
Proof.
  intros H. induction H as [|x n i sh Hx H IH]; cbn [make_strides zdot product]; [lia|].
  assert (x * product sh <= (n - 1) * product sh) by (apply Z.mul_le_mono_nonneg_r; lia).
  assert (0 <= x * product sh) by (apply Z.mul_nonneg_nonneg; lia).
  rewrite Z.mul_sub_distr_r in *. lia.
Qed.

Lemma unravel_ravel i sh : in_box i sh -> forall k,
  unravel (zdot i (make_strides sh) + k * product sh) sh = i.
Proof.
  intros H. induction H as [|x n i sh Hx H IH]; intros k; cbn [make_strides zdot product unravel];
    [reflexivity|].
  pose proof (ravel_range i sh H) as Hr.
  set (z := zdot i (make_strides sh)) in *. set (P := product sh) in *.
  replace (x * P + z + k * (n * P)) with (z + (x + k * n) * P) by ring.
  f_equal; [|apply IH].
  rewrite Z.div_add by lia. rewrite (Z.div_small z) by lia.
  rewrite Z.add_0_l, Z.mod_add by lia. apply Z.mod_small. lia.
Qed.

Lemma unravel_ravel0 i sh : in_box i sh -> unravel (zdot i (make_strides sh)) sh = i.
Proof. intros H. rewrite <- (unravel_ravel i sh H 0) at 2. f_equal. lia. Qed.

Lemma ravel_unravel_mod r sh : positive sh ->
  zdot (unravel r sh) (make_strides sh) = r mod product sh.
Proof.
  intros H. induction H as [|n sh Hn H IH]; cbn [make_strides zdot product unravel].
  - now rewrite Z.mod_1_r.
  - rewrite IH. pose proof (product_positive sh H). rewrite (Z.mul_comm n).
    rewrite Z.rem_mul_r by lia. ring.
Qed.

Lemma ravel_unravel r sh : positive sh -> 0 <= r < product sh ->
  zdot (unravel r sh) (make_strides sh) = r.
Proof. intros H Hr. rewrite ravel_unravel_mod by assumption. apply Z.mod_small. lia. Qed.

(** * The sums *)
Lemma pyget_znth l d : 0 <= d < zlen l -> pyget l d = Ok (znth d l).
Proof. apply pyget_ok. Qed.

Lemma mapM_gather l dims : axes_in (zlen l) dims -> mapM (pyget l) dims = Ok (gather l dims).
Proof.
  intros H. induction H as [|d dims Hd H IH]; cbn [mapM]; [reflexivity|].
  rewrite pyget_znth by assumption. cbn [bind]. rewrite IH. reflexivity.
Qed.

Lemma make_strides_length sh : length (make_strides sh) = length sh.
Proof. induction sh; cbn; auto. Qed.

Lemma get_rposition_ok index strides shape dims :
  axes_in (zlen index) dims -> length shape = length dims -> length strides = length dims ->
  get_rposition index strides shape dims = Ok (zdot (gather index dims) strides).
Proof.
  intros H. revert shape strides.
  induction H as [|d dims Hd H IH]; intros [|n shape] [|s strides] L1 L2; cbn in L1, L2; try lia;
    cbn [get_rposition]; [reflexivity|].
  rewrite pyget_znth by assumption. cbn [bind]. rewrite IH by lia. reflexivity.
Qed.

Lemma reduction_sum_ok index strides shape dims :
  axes_in (zlen index) dims -> length shape = length dims -> length strides = length dims ->
  reduction_sum shape strides dims index = Ok (zdot (gather index dims) strides).
Proof.
  intros H. revert shape strides.
  induction H as [|d dims Hd H IH]; intros [|n shape] [|s strides] L1 L2; cbn in L1, L2; try lia;
    cbn [reduction_sum]; [reflexivity|].
  rewrite pyget_znth by assumption. cbn [bind]. rewrite IH by lia. cbn [bind gather map zdot].
  rewrite (Z.mul_comm s). reflexivity.
Qed.

(** * The promotion loop *)
Fixpoint assign (l : list (option Z)) (dims vals : list Z) : list (option Z) :=
  match dims, vals with
  | d :: ds, v :: vs => assign (set_nth (Z.to_nat d) (Some v) l) ds vs
  | _, _ => l
  end.

Lemma assign_length dims : forall l vals, length (assign l dims vals) = length l.
Proof.
  induction dims as [|d ds IH]; intros l vals; [reflexivity|].
  destruct vals as [|v vs]; [reflexivity|]. cbn [assign]. rewrite IH. apply set_nth_length.
Qed.

Lemma assign_app a b : forall l va vb, length a = length va ->
  assign l (a ++ b) (va ++ vb) = assign (assign l a va) b vb.
Proof.
  induction a as [|d a IH]; intros l va vb Hl.
  - destruct va; [reflexivity|cbn in Hl; lia].
  - destruct va as [|v va]; [cbn in Hl; lia|]. cbn [app assign]. apply IH. cbn in Hl. lia.
Qed.

Lemma promotion_loop_ok r dims : forall shape l,
  axes_in (zlen l) dims -> length shape = length dims -> positive shape ->
  promotion_loop r dims (make_strides shape) shape l = Ok (assign l dims (unravel r shape)).
Proof.
  induction dims as [|d ds IH]; intros shape l Ha Hl Hp; cbn [promotion_loop].
  - reflexivity.
  - destruct shape as [|n sh]; [cbn in Hl; lia|].
    inversion Ha as [|? ? Hd Ha']; subst. inversion Hp as [|? ? Hn Hp']; subst.
    cbn [make_strides unravel assign]. pose proof (product_positive sh Hp').
    unfold pydiv. replace (product sh =? 0) with false by lia. cbn [bind].
    unfold pymod. replace (n =? 0) with false by lia. cbn [bind].
    rewrite pyset_ok by assumption. cbn [bind]. apply IH; auto.
    + unfold zlen in *. now rewrite set_nth_length.
Qed.

Lemma assign_other dims : forall l vals k, axes_in (zlen l) dims ->
  ~ In (Z.of_nat k) dims -> nth k (assign l dims vals) None = nth k l None.
Proof.
  induction dims as [|d ds IH]; intros l vals k Ha Hn; [reflexivity|].
  destruct vals as [|v vs]; [reflexivity|]. cbn [assign].
  inversion Ha as [|? ? Hd Ha']; subst.
  rewrite IH.
  - rewrite set_nth_nth by (unfold zlen in Hd; lia).
    destruct (Nat.eqb_spec k (Z.to_nat d)) as [->|]; [|reflexivity].
    exfalso. apply Hn. left. lia.
  - unfold zlen in *. now rewrite set_nth_length.
  - intros H. apply Hn. now right.
Qed.

Lemma assign_at dims : forall l vals, axes_in (zlen l) dims -> NoDup dims ->
  length vals = length dims ->
  map (fun d => nth (Z.to_nat d) (assign l dims vals) None) dims = map Some vals.
Proof.
  induction dims as [|d ds IH]; intros l vals Ha Hnd Hl.
  - destruct vals; [reflexivity|cbn in Hl; lia].
  - destruct vals as [|v vs]; [cbn in Hl; lia|].
    inversion Ha as [|? ? Hd Ha']; subst. inversion Hnd as [|? ? Hni Hnd']; subst.
    cbn [assign map].
    assert (Ha2 : axes_in (zlen (set_nth (Z.to_nat d) (Some v) l)) ds).
    { unfold zlen in *. now rewrite set_nth_length. }
    f_equal.
    + rewrite assign_other.
      * rewrite set_nth_nth by (unfold zlen in Hd; lia). now rewrite Nat.eqb_refl.
      * assumption.
      * now rewrite Z2Nat.id by lia.
    + apply IH; auto.
Qed.

Lemma all_some_map i : all_some (map Some i) = Ok i.
Proof. induction i as [|x i IH]; cbn [map all_some]; [reflexivity|]. now rewrite IH. Qed.

Lemma all_some_exists (l : list (option Z)) : (forall k, (k < length l)%nat -> nth k l None <> None) ->
  exists i, l = map Some i.
Proof.
  induction l as [|x l IH]; intros H.
  - now exists [].
  - destruct IH as [i Ei].
    + intros k Hk. apply (H (S k)). cbn; lia.
    + destruct x as [z|].
      * exists (z :: i). now rewrite Ei.
      * exfalso. apply (H 0%nat); [cbn; lia|reflexivity].
Qed.

(** A full assignment is the unique index with the given entries. *)
Lemma perm_axes n dims : Permutation dims (zseq n) -> axes_in n dims.
Proof.
  intros H. apply Forall_forall. intros d Hd. apply In_zseq. eapply Permutation_in; eassumption.
Qed.

Lemma NoDup_zseq n : NoDup (zseq n).
Proof. unfold zseq. apply FinFun.Injective_map_NoDup; [intros a b; lia|apply seq_NoDup]. Qed.

Lemma perm_NoDup n dims : Permutation dims (zseq n) -> NoDup dims.
Proof. intros H. eapply Permutation_NoDup; [apply Permutation_sym; exact H|apply NoDup_zseq]. Qed.

Lemma assign_full n dims vals : 0 <= n -> Permutation dims (zseq n) -> length vals = length dims ->
  exists i, assign (repeat None (Z.to_nat n)) dims vals = map Some i
    /\ zlen i = n /\ gather i dims = vals.
Proof.
  intros Hn Hp Hl.
  set (l0 := repeat None (Z.to_nat n)).
  assert (Hz : zlen l0 = n) by (unfold l0, zlen; rewrite repeat_length; lia).
  pose proof (perm_axes _ _ Hp) as Ha. rewrite <- Hz in Ha.
  pose proof (perm_NoDup _ _ Hp) as Hnd.
  pose proof (assign_at dims l0 vals Ha Hnd Hl) as Hat.
  destruct (all_some_exists (assign l0 dims vals)) as [i Ei].
  { intros k Hk Hnone. rewrite assign_length in Hk.
    assert (Hin : In (Z.of_nat k) dims).
    { eapply Permutation_in; [apply Permutation_sym; exact Hp|]. apply In_zseq.
      unfold zlen in Hz. lia. }
    apply (in_map (fun d => nth (Z.to_nat d) (assign l0 dims vals) None)) in Hin.
    rewrite Hat in Hin. rewrite Nat2Z.id, Hnone in Hin.
    apply in_map_iff in Hin. destruct Hin as (x & Hx & _). discriminate. }
  exists i. split; [exact Ei|].
  assert (Hli : length i = length l0).
  { rewrite <- (assign_length dims l0 vals), Ei. now rewrite map_length. }
  split; [unfold zlen in *; lia|].
  rewrite Ei in Hat. unfold gather.
  assert (Hs : map Some (map (fun d => znth d i) dims) = map Some vals).
  { rewrite <- Hat, map_map. apply map_ext_in. intros d Hd.
    unfold axes_in in Ha; rewrite Forall_forall in Ha. specialize (Ha d Hd).
    rewrite nth_indep with (d' := Some 0) by (rewrite map_length; unfold zlen in *; lia).
    now rewrite map_nth. }
  clear - Hs. revert vals Hs. generalize (map (fun d => znth d i) dims). intros a.
  induction a as [|x a IH]; intros [|v vs] H; cbn in H; try discriminate; auto.
  injection H as -> H. f_equal. auto.
Qed.

Lemma gather_inj n dims i j : Permutation dims (zseq n) -> zlen i = n -> zlen j = n ->
  gather i dims = gather j dims -> i = j.
Proof.
  intros Hp Hi Hj He.
  apply (nth_ext _ _ 0 0); [unfold zlen in *; lia|]. intros k Hk.
  assert (Hin : In (Z.of_nat k) dims).
  { eapply Permutation_in; [apply Permutation_sym; exact Hp|]. apply In_zseq. unfold zlen in *. lia. }
  unfold gather in He. clear Hp.
  induction dims as [|d dims IH]; [contradiction|]. cbn [map] in He. injection He as E He.
  destruct Hin as [->|Hin].
  - unfold znth in E. now rewrite Nat2Z.id in E.
  - now apply IH.
Qed.

Lemma in_box_nth i shape : zlen i = zlen shape ->
  (in_box i shape <-> forall d, 0 <= d < zlen shape -> 0 <= znth d i < znth d shape).
Proof.
  intros Hl. split.
  - intros H. clear Hl. induction H as [|x n i sh Hx H IH]; intros d Hd.
    + unfold zlen in Hd. cbn in Hd. lia.
    + unfold znth. destruct (Z.to_nat d) as [|k] eqn:E; [exact Hx|].
      cbn [nth]. specialize (IH (Z.of_nat k)). unfold znth in IH. rewrite Nat2Z.id in IH.
      apply IH. unfold zlen in *. cbn [length] in Hd. lia.
  - revert shape Hl. induction i as [|x i IH]; intros [|n sh] Hl H; unfold zlen in Hl; cbn in Hl; try lia.
    + constructor.
    + constructor.
      * apply (H 0). unfold zlen. cbn [length]. lia.
      * apply IH; [unfold zlen; lia|]. intros d Hd. specialize (H (d + 1)).
        unfold znth in *. replace (Z.to_nat (d + 1)) with (S (Z.to_nat d)) in H by lia.
        cbn [nth] in H. apply H. unfold zlen in *. cbn [length]. lia.
Qed.

Lemma in_box_gather n dims i shape : Permutation dims (zseq n) -> zlen i = n -> zlen shape = n ->
  (in_box i shape <-> in_box (gather i dims) (gather shape dims)).
Proof.
  intros Hp Hi Hs. rewrite (in_box_nth i shape) by congruence. rewrite Hs. split.
  - intros H. pose proof (perm_axes _ _ Hp) as Ha. clear Hp.
    induction Ha as [|d dims Hd Ha IH]; constructor; auto.
  - intros H d Hd.
    assert (Hin : In d dims).
    { eapply Permutation_in; [apply Permutation_sym; exact Hp|]. now apply In_zseq. }
    clear Hp. unfold gather in H. induction dims as [|e dims IH]; [contradiction|].
    inversion H; subst. destruct Hin as [->|Hin]; auto.
Qed.

Lemma gather_positive n dims shape : axes_in n dims -> zlen shape = n ->
  positive shape -> positive (gather shape dims).
Proof.
  intros Ha Hs Hp. induction Ha as [|d dims Hd Ha IH]; constructor; auto.
  unfold positive in Hp. rewrite Forall_forall in Hp. apply Hp. apply nth_In. unfold zlen in *. lia.
Qed.

Lemma gather_zseq l : gather l (zseq (zlen l)) = l.
Proof.
  apply (nth_ext _ _ 0 0); rewrite gather_length, zseq_length_nat.
  - unfold zlen; lia.
  - intros k Hk. unfold gather. rewrite (nth_zseq_map (fun d => znth d l)) by assumption.
    unfold znth. now rewrite Nat2Z.id.
Qed.

Lemma gather_perm l dims : Permutation dims (zseq (zlen l)) -> Permutation (gather l dims) l.
Proof.
  intros H. rewrite <- (gather_zseq l) at 2. now apply Permutation_map.
Qed.

Lemma product_perm l m : Permutation l m -> product l = product m.
Proof. intros H. induction H; cbn [product]; try congruence. ring. Qed.

(** * Groups *)
Definition group_shapes (shape : list Z) (rdims : list (list Z)) : list (list Z) :=
  map (gather shape) rdims.
Definition group_strides (shape : list Z) (rdims : list (list Z)) : list (list Z) :=
  map (fun g => make_strides (gather shape g)) rdims.
Definition group_shape (shape : list Z) (rdims : list (list Z)) : list Z :=
  map (fun g => product (gather shape g)) rdims.
Definition group_index (shape : list Z) (rdims : list (list Z)) (i : list Z) : list Z :=
  map (fun g => zdot (gather i g) (make_strides (gather shape g))) rdims.
Fixpoint group_digits (shape : list Z) (rdims : list (list Z)) (r : list Z) : list Z :=
  match rdims, r with
  | g :: gs, x :: r' => unravel x (gather shape g) ++ group_digits shape gs r'
  | _, _ => []
  end.

Lemma make_reduction_ok shape rdims : axes_in (zlen shape) (concat rdims) ->
  make_reduction shape rdims
  = Ok (group_shape shape rdims, group_shapes shape rdims, group_strides shape rdims).
Proof.
  intros Ha. unfold make_reduction.
  assert (E : mapM (mapM (pyget shape)) rdims = Ok (group_shapes shape rdims)).
  { induction rdims as [|g gs IH]; cbn [mapM]; [reflexivity|].
    cbn [concat] in Ha. apply Forall_app in Ha. destruct Ha as [H1 H2].
    rewrite mapM_gather by assumption. cbn [bind]. rewrite IH by assumption. reflexivity. }
  rewrite E. cbn [bind]. unfold group_shapes, group_shape, group_strides. now rewrite !map_map.
Qed.

Lemma reduce_index_ok shape rdims i : forall roffset,
  axes_in (zlen i) (concat rdims) -> length roffset = length rdims ->
  reduce_index (group_shapes shape rdims) rdims (group_strides shape rdims) roffset i
  = Ok (map2 Z.add roffset (group_index shape rdims i)).
Proof.
  induction rdims as [|g gs IH]; intros roffset Ha Hl; cbn [group_shapes map reduce_index group_strides].
  - destruct roffset; [reflexivity|cbn in Hl; lia].
  - destruct roffset as [|o os]; [cbn in Hl; lia|].
    cbn [concat] in Ha. apply Forall_app in Ha. destruct Ha as [H1 H2].
    rewrite get_rposition_ok; [|assumption|apply gather_length|].
    2:{ rewrite make_strides_length. apply gather_length. }
    cbn [bind]. fold (group_shapes shape gs). fold (group_strides shape gs).
    rewrite IH by (auto; cbn in Hl; lia). reflexivity.
Qed.

Lemma group_digits_length shape rdims : forall r, length r = length rdims ->
  length (group_digits shape rdims r) = length (concat rdims).
Proof.
  induction rdims as [|g gs IH]; intros [|x r] Hl; cbn in Hl; try lia; [reflexivity|].
  cbn [group_digits concat]. rewrite !app_length, unravel_length, gather_length. rewrite IH by lia.
  reflexivity.
Qed.

Lemma promote_groups_ok shape rdims : positive shape -> forall roffset r l,
  axes_in (zlen shape) (concat rdims) -> zlen l = zlen shape ->
  length roffset = length rdims -> length r = length rdims ->
  promote_groups (group_shapes shape rdims) rdims (group_strides shape rdims) roffset r l
  = Ok (assign l (concat rdims) (group_digits shape rdims (map2 Z.sub r roffset))).
Proof.
  intros Hp. induction rdims as [|g gs IH]; intros roffset r l Ha Hz L1 L2;
    cbn [group_shapes map promote_groups group_strides].
  - reflexivity.
  - destruct roffset as [|o os]; [cbn in L1; lia|]. destruct r as [|x r]; [cbn in L2; lia|].
    cbn [concat] in Ha. apply Forall_app in Ha. destruct Ha as [H1 H2].
    rewrite promotion_loop_ok.
    2:{ unfold axes_in in *. rewrite Hz. exact H1. }
    2:{ apply gather_length. }
    2:{ eapply gather_positive; [exact H1|reflexivity|exact Hp]. }
    cbn [bind]. fold (group_shapes shape gs). fold (group_strides shape gs).
    rewrite IH; auto; try (cbn in L1, L2; lia).
    2:{ unfold zlen in *. now rewrite assign_length. }
    cbn [concat map2 group_digits]. rewrite assign_app; [reflexivity|].
    rewrite unravel_length, gather_length. reflexivity.
Qed.

Lemma promote_index_ok shape rdims roffset r : positive shape ->
  Permutation (concat rdims) (zseq (zlen shape)) ->
  length roffset = length rdims -> length r = length rdims ->
  exists i, promote_index (group_shapes shape rdims) rdims (group_strides shape rdims) roffset r = Ok i
    /\ zlen i = zlen shape
    /\ gather i (concat rdims) = group_digits shape rdims (map2 Z.sub r roffset).
Proof.
  intros Hp Hperm L1 L2. unfold promote_index.
  assert (Hlc : length (concat rdims) = Z.to_nat (zlen shape)).
  { rewrite (Permutation_length Hperm). apply zseq_length_nat. }
  rewrite Hlc. rewrite promote_groups_ok; auto.
  2:{ now apply perm_axes. }
  2:{ unfold zlen. rewrite repeat_length. lia. }
  cbn [bind].
  destruct (assign_full (zlen shape) (concat rdims) (group_digits shape rdims (map2 Z.sub r roffset)))
    as (i & E & Hi & Hg); auto.
  - unfold zlen; lia.
  - apply group_digits_length. clear - L1 L2. revert roffset r L1 L2.
    induction rdims as [|g gs IH]; intros [|o os] [|x r] L1 L2; cbn in *; try lia. f_equal. apply IH; lia.
  - exists i. rewrite E, all_some_map. auto.
Qed.

(** digits of a group index *)
Lemma group_digits_index shape rdims i :
  (forall g, In g rdims -> in_box (gather i g) (gather shape g)) ->
  group_digits shape rdims (group_index shape rdims i) = gather i (concat rdims).
Proof.
  induction rdims as [|g gs IH]; intros H; [reflexivity|].
  cbn [group_index map group_digits concat]. rewrite gather_app. f_equal.
  - apply unravel_ravel0. apply H. now left.
  - apply IH. intros g' Hg'. apply H. now right.
Qed.

Lemma group_index_digits shape rdims : forall i r,
  positive shape -> axes_in (zlen shape) (concat rdims) ->
  in_box r (group_shape shape rdims) ->
  gather i (concat rdims) = group_digits shape rdims r ->
  group_index shape rdims i = r.
Proof.
  induction rdims as [|g gs IH]; intros i r Hp Ha Hb He.
  - inversion Hb. reflexivity.
  - cbn [group_shape map] in Hb. inversion Hb as [|x n r' sh Hx Hb']; subst.
    cbn [concat] in Ha. apply Forall_app in Ha. destruct Ha as [H1 H2].
    cbn [concat group_digits] in He. rewrite gather_app in He.
    assert (Hlen : length (gather i g) = length (unravel x (gather shape g))).
    { now rewrite unravel_length, !gather_length. }
    assert (Heq : gather i g = unravel x (gather shape g) /\ gather i (concat gs) = group_digits shape gs r').
    { clear - He Hlen. revert He Hlen. generalize (gather i g) (unravel x (gather shape g)).
      intros a. induction a as [|y a IH]; intros [|z b] He Hl; cbn in *; try lia; auto.
      injection He as -> He. destruct (IH b He ltac:(lia)) as [-> ->]. auto. }
    destruct Heq as [E1 E2]. cbn [group_index map]. f_equal.
    + rewrite E1. apply ravel_unravel; [|assumption].
      eapply gather_positive; [exact H1|reflexivity|exact Hp].
    + now apply IH.
Qed.

Lemma in_box_app a b c d : length a = length c ->
  (in_box (a ++ b) (c ++ d) <-> in_box a c /\ in_box b d).
Proof.
  revert c. induction a as [|x a IH]; intros [|n c] Hl; cbn in Hl; try lia; cbn [app].
  - split; [intros H; split; [constructor|assumption]|tauto].
  - split.
    + intros H. inversion H; subst. destruct (IH c ltac:(lia)) as [I _]. specialize (I ltac:(assumption)).
      split; [constructor|]; tauto.
    + intros [H1 H2]. inversion H1; subst. constructor; [assumption|]. apply IH; auto.
Qed.

Lemma in_box_groups i shape rdims :
  in_box (gather i (concat rdims)) (gather shape (concat rdims)) ->
  forall g, In g rdims -> in_box (gather i g) (gather shape g).
Proof.
  induction rdims as [|g0 gs IH]; intros H g Hg; [contradiction|].
  cbn [concat] in H. rewrite !gather_app in H. apply in_box_app in H; [|now rewrite !gather_length].
  destruct H as [H1 H2]. destruct Hg as [->|Hg]; auto.
Qed.

Lemma group_digits_in_box shape rdims : forall r, positive shape ->
  axes_in (zlen shape) (concat rdims) -> length r = length rdims ->
  in_box (group_digits shape rdims r) (gather shape (concat rdims)).
Proof.
  induction rdims as [|g gs IH]; intros [|x r] Hp Ha Hl; cbn in Hl; try lia; [constructor|].
  cbn [concat] in Ha. apply Forall_app in Ha. destruct Ha as [H1 H2].
  cbn [group_digits concat]. rewrite gather_app. apply in_box_app.
  - now rewrite unravel_length.
  - split; [|apply IH; auto; lia]. apply unravel_in_box.
    eapply gather_positive; [exact H1|reflexivity|exact Hp].
Qed.

Lemma group_index_in_box shape rdims i :
  (forall g, In g rdims -> in_box (gather i g) (gather shape g)) ->
  in_box (group_index shape rdims i) (group_shape shape rdims).
Proof.
  intros H. induction rdims as [|g gs IH]; cbn [group_index group_shape map]; constructor.
  - apply ravel_range. apply H. now left.
  - apply IH. intros g' Hg'. apply H. now right.
Qed.

Lemma group_index_length shape rdims i : length (group_index shape rdims i) = length rdims.
Proof. apply map_length. Qed.

Lemma in_box_len i sh : in_box i sh -> length i = length sh.
Proof. intros H. induction H; cbn; auto. Qed.

Lemma in_box_zlen i sh : in_box i sh -> zlen i = zlen sh.
Proof. intros H. unfold zlen. now rewrite (in_box_len i sh H). Qed.

Lemma map2_add_zeros (l : list Z) n : length l = n -> map2 Z.add (repeat 0 n) l = l.
Proof. intros <-. induction l as [|x l IH]; cbn; [reflexivity|]. now rewrite IH. Qed.

Lemma map2_sub_zeros (l : list Z) n : length l = n -> map2 Z.sub l (repeat 0 n) = l.
Proof. intros <-. induction l as [|x l IH]; cbn; [reflexivity|]. rewrite IH. f_equal. lia. Qed.

Lemma promote_reduce shape rdims i : 
  Permutation (concat rdims) (zseq (zlen shape)) -> in_box i shape ->
  promote_index (group_shapes shape rdims) rdims (group_strides shape rdims)
    (repeat 0 (length rdims)) (group_index shape rdims i) = Ok i.
Proof.
  intros Hperm Hi. pose proof (in_box_positive _ _ Hi) as Hp.
  destruct (promote_index_ok shape rdims (repeat 0 (length rdims)) (group_index shape rdims i))
    as (j & E & Hj & Hg); auto.
  - apply repeat_length.
  - apply group_index_length.
  - rewrite E. f_equal. apply (gather_inj (zlen shape) (concat rdims)); auto.
    + now apply in_box_zlen.
    + rewrite Hg, map2_sub_zeros by apply group_index_length.
      apply group_digits_index. apply in_box_groups.
      apply (in_box_gather (zlen shape)); auto. now apply in_box_zlen.
Qed.

Lemma reduce_promote shape rdims r : positive shape ->
  Permutation (concat rdims) (zseq (zlen shape)) -> in_box r (group_shape shape rdims) ->
  exists i, promote_index (group_shapes shape rdims) rdims (group_strides shape rdims)
              (repeat 0 (length rdims)) r = Ok i
    /\ in_box i shape /\ group_index shape rdims i = r.
Proof.
  intros Hp Hperm Hr.
  assert (Hl : length r = length rdims).
  { rewrite (in_box_len _ _ Hr). apply map_length. }
  destruct (promote_index_ok shape rdims (repeat 0 (length rdims)) r) as (i & E & Hi & Hg); auto.
  { apply repeat_length. }
  rewrite map2_sub_zeros in Hg by assumption.
  exists i. split; [exact E|]. split.
  - apply (in_box_gather (zlen shape) (concat rdims)); auto. rewrite Hg.
    apply group_digits_in_box; auto. now apply perm_axes.
  - apply group_index_digits; auto. now apply perm_axes.
Qed.

(** * Partitionings *)

Lemma skipn_skipn_add {A} a b (l : list A) : skipn a (skipn b l) = skipn (b + a) l.
Proof. revert l. induction b as [|b IH]; intros l; [reflexivity|]. destruct l; [now rewrite !skipn_nil|]. apply IH. Qed.

(** cutting at nondecreasing positions from a to the end *)
Lemma concat_cut dims : forall ps a, Sorted Z.le (a :: ps) -> 0 <= a ->
  Forall (fun p => p <= zlen dims) (a :: ps) -> last ps a = zlen dims ->
  concat (cut dims (a :: ps)) = skipn (Z.to_nat a) dims.
Proof.
  induction ps as [|b ps IH]; intros a Hs Ha Hle Hl.
  - cbn [last] in Hl. cbn [cut concat]. rewrite skipn_all2; [reflexivity|]. unfold zlen in Hl. lia.
  - inversion Hs as [|? ? Hs' Hh]; subst. inversion Hh; subst.
    inversion Hle as [|? ? Hle1 Hle2]; subst. inversion Hle2; subst.
    change (cut dims (a :: b :: ps)) with (pyslice_list dims a b :: cut dims (b :: ps)).
    cbn [concat]. rewrite IH; auto; try lia.
    2:{ destruct ps as [|c ps]; [exact Hl|]. cbn [last] in Hl |- *.
        clear - Hl. revert c Hl. induction ps as [|d ps IH]; intros c Hl; [exact Hl|]. now apply (IH d). }
    unfold pyslice_list, pyclamp. unfold zlen in *.
    replace (a <? 0) with false by lia. replace (b <? 0) with false by lia.
    replace (Z.min (Z.max a 0) (Z.of_nat (length dims))) with a by lia.
    replace (Z.min (Z.max b 0) (Z.of_nat (length dims))) with b by lia.
    rewrite <- (firstn_skipn (Z.to_nat (b - a)) (skipn (Z.to_nat a) dims)) at 2. f_equal.
    rewrite skipn_skipn_add. f_equal. lia.
Qed.

(** the positions of a partitioning *)
Definition partition_ok (n : Z) (partitioning : list Z) : Prop :=
  Sorted Z.le partitioning /\ Forall (fun p => 0 <= p <= n) partitioning.

Lemma concat_cut_partition dims n partitioning : zlen dims = n -> partition_ok n partitioning ->
  concat (cut dims ([0] ++ partitioning ++ [n])) = dims.
Proof.
  intros Hn [Hs Hf].
  change ([0] ++ partitioning ++ [n]) with (0 :: (partitioning ++ [n])).
  rewrite concat_cut; [reflexivity| |lia| |].
  - constructor.
    + apply (sorted_app_le _ _ n).
      * exact Hs.
      * repeat constructor.
      * eapply Forall_impl; [|exact Hf]. cbn. intros; lia.
      * repeat constructor. lia.
    + destruct Hf; constructor; unfold zlen in *; lia.
  - constructor; [unfold zlen; lia|]. apply Forall_app. split.
    + eapply Forall_impl; [|exact Hf]. cbn. intros; lia.
    + repeat constructor. lia.
  - rewrite last_last. now symmetry.
Qed.

Lemma cut_length dims : forall ps, ps <> [] -> length (cut dims ps) = (length ps - 1)%nat.
Proof.
  induction ps as [|p ps IH]; intros H; [congruence|].
  destruct ps as [|q ps]; [reflexivity|].
  change (cut dims (p :: q :: ps)) with (pyslice_list dims p q :: cut dims (q :: ps)).
  cbn [length]. rewrite IH by congruence. cbn [length]. lia.
Qed.

(** * gcs_basics *)
Definition md_of (shape : list Z) (rdims : list (list Z)) : list rgroup :=
  map (fun g => RG g (gather shape g) (make_strides (gather shape g))) rdims.

Lemma create_reduction_metadata_ok shape dims partitioning :
  axes_in (zlen shape) (concat (cut dims ([0] ++ partitioning ++ [zlen shape]))) ->
  zlen partitioning + 1 <= zlen shape ->
  create_reduction_metadata shape dims partitioning
  = Ok (md_of shape (cut dims ([0] ++ partitioning ++ [zlen shape]))).
Proof.
  intros Ha Hl. unfold create_reduction_metadata, assert_.
  replace (zlen partitioning + 1 <=? zlen shape) with true by lia. cbn [bind].
  revert Ha. generalize (cut dims ([0] ++ partitioning ++ [zlen shape])). intros gs Ha.
  induction gs as [|g gs IH]; cbn [mapM]; [reflexivity|].
  cbn [concat] in Ha. apply Forall_app in Ha. destruct Ha as [H1 H2].
  rewrite mapM_gather by assumption. cbn [bind]. rewrite IH by assumption. reflexivity.
Qed.

Lemma reduction_ok shape rdims i : axes_in (zlen i) (concat rdims) ->
  reduction (md_of shape rdims) i = Ok (group_index shape rdims i).
Proof.
  intros Ha. unfold reduction, md_of. induction rdims as [|g gs IH]; cbn [map mapM]; [reflexivity|].
  cbn [concat] in Ha. apply Forall_app in Ha. destruct Ha as [H1 H2].
  cbn [rg_shape rg_strides rg_dims]. rewrite reduction_sum_ok; [|assumption|apply gather_length|].
  2:{ rewrite make_strides_length. apply gather_length. }
  cbn [bind]. rewrite IH by assumption. reflexivity.
Qed.

Lemma promotion_groups_ok shape rdims : positive shape -> forall r l,
  axes_in (zlen shape) (concat rdims) -> zlen l = zlen shape -> length r = length rdims ->
  promotion_groups (md_of shape rdims) r l
  = Ok (assign l (concat rdims) (group_digits shape rdims r)).
Proof.
  intros Hp. induction rdims as [|g gs IH]; intros r l Ha Hz L2; cbn [md_of map promotion_groups].
  - reflexivity.
  - destruct r as [|x r]; [cbn in L2; lia|].
    cbn [concat] in Ha. apply Forall_app in Ha. destruct Ha as [H1 H2].
    cbn [rg_shape rg_strides rg_dims]. rewrite promotion_loop_ok.
    2:{ unfold axes_in in *. rewrite Hz. exact H1. }
    2:{ apply gather_length. }
    2:{ eapply gather_positive; [exact H1|reflexivity|exact Hp]. }
    cbn [bind]. fold (md_of shape gs).
    rewrite IH; auto; try (cbn in L2; lia).
    2:{ unfold zlen in *. now rewrite assign_length. }
    cbn [concat group_digits]. rewrite assign_app; [reflexivity|].
    rewrite unravel_length, gather_length. reflexivity.
Qed.

Lemma promotion_promote shape rdims r : positive shape ->
  Permutation (concat rdims) (zseq (zlen shape)) -> length r = length rdims ->
  promotion (zlen shape) (md_of shape rdims) r
  = promote_index (group_shapes shape rdims) rdims (group_strides shape rdims)
      (repeat 0 (length rdims)) r.
Proof.
  intros Hp Hperm Hl. unfold promotion, promote_index.
  assert (Hlc : length (concat rdims) = Z.to_nat (zlen shape)).
  { rewrite (Permutation_length Hperm). apply zseq_length_nat. }
  rewrite Hlc. rewrite promote_groups_ok, promotion_groups_ok; auto.
  - now rewrite map2_sub_zeros.
  - now apply perm_axes.
  - unfold zlen. rewrite repeat_length. lia.
  - now apply perm_axes.
  - unfold zlen. rewrite repeat_length. lia.
  - apply repeat_length.
Qed.

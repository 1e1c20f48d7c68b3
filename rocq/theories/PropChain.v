(** C30: which chains of slices of a DM array give the elements they should. *)
From Coq Require Import Sorting.Sorted Permutation ZifyBool.
From Verif Require Import Py SliceTools Basics Storage Spec SliceFacts IndexFacts
  CompressFacts ReduceFacts SolverFacts SolveFacts Repr ReprFacts ViewFacts BuildFacts SparseFacts
  ConvFacts FromFacts DMFacts ReadFacts MapFacts ChainFacts ChainDM PropRead.

(** * Specification *)

(** The axes of the array that are left after the chain: an integer item drops
    its axis. *)
Fixpoint items_axes (ix : list ind) (axes : list Z) : list Z :=
  match ix, axes with
  | _, [] => []
  | [], _ => axes
  | IInt _ :: r, _ :: l => items_axes r l
  | _ :: r, a :: l => a :: items_axes r l
  end.
Fixpoint chain_axes (ixs : list pyindex) (axes : list Z) : list Z :=
  match ixs with [] => axes | ix :: r => chain_axes r (items_axes (index_items ix) axes) end.

(** An axis of the group [g] is left after the chain. *)
Definition touches (g : list Z) (ixs : list pyindex) (shape : list Z) : Prop :=
  exists a, In a g /\ In a (chain_axes ixs (zseq (zlen shape))).

(** Where the first element of [x[i1][i2]...] is in [x]. *)
Definition chain_start (ixs : list pyindex) (shape : list Z) : list Z :=
  chain_source ixs shape (map (fun _ => 0) (chain_shape ixs shape)).

(** When an index drops the last axes of the group [g], the array it is applied
    to starts, on each axis of the group, at index 0 of the first array. *)
Definition group_composes (shape : list Z) (ixs : list pyindex) (g : list Z) : Prop :=
  forall p ix r, ixs = p ++ ix :: r -> touches g p shape -> ~ touches g (p ++ [ix]) shape ->
    forall a, In a g -> znth a (chain_start p shape) = 0.

(** * Facts *)
Lemma chain_axes_app p ix axes : chain_axes (p ++ [ix]) axes = items_axes (index_items ix) (chain_axes p axes).
Proof. revert axes. induction p as [|i p IH]; intros axes; cbn [app chain_axes]; auto. Qed.
Lemma chain_shape_app p ix sh : chain_shape (p ++ [ix]) sh = slice_shape ix (chain_shape p sh).
Proof. revert sh. induction p as [|i p IH]; intros sh; cbn [app chain_shape]; auto. Qed.
Lemma chain_source_app p ix sh j :
  chain_source (p ++ [ix]) sh j = chain_source p sh (source_index ix (chain_shape p sh) j).
Proof. revert sh. induction p as [|i p IH]; intros sh; cbn [app chain_source chain_shape]; [reflexivity|]. now rewrite IH. Qed.
Lemma chain_ok_app p r sh : chain_ok (p ++ r) sh -> chain_ok p sh /\ chain_ok r (chain_shape p sh).
Proof.
  revert sh. induction p as [|i p IH]; intros sh; cbn [app chain_ok chain_shape]; [auto|].
  intros (H1 & H2 & H3 & H4). destruct (IH _ H4). auto 10.
Qed.

Lemma items_axes_in items : forall axes x, In x (items_axes items axes) -> In x axes.
Proof.
  induction items as [|i r IH]; intros [|a l] x H; cbn [items_axes] in H; auto.
  { destruct i; exact H. }
  destruct i; cbn [In] in H |- *; [right; now apply IH| | |]; (destruct H as [H|H]; [now left|right; now apply IH]).
Qed.
Lemma items_axes_NoDup items : forall axes, NoDup axes -> NoDup (items_axes items axes).
Proof.
  induction items as [|i r IH]; intros [|a l] H; cbn [items_axes]; auto.
  { destruct i; constructor. }
  inversion H as [|? ? H1 H2]; subst. destruct i; [now apply IH| | |];
    (constructor; [intros Hin; apply H1; now apply items_axes_in in Hin|now apply IH]).
Qed.
Lemma items_axes_length items : forall axes sh, length axes = length sh ->
  length (items_axes items axes) = length (items_shape items sh).
Proof.
  induction items as [|i r IH]; intros [|a l] [|n sh] H; cbn in H; try lia; cbn [items_axes items_shape]; auto.
  destruct i; cbn [length]; rewrite ?(IH l sh) by lia; auto.
Qed.

Lemma items_axes_at items : forall sh axes a, length axes = length sh -> NoDup axes -> 0 <= a < zlen sh ->
  let nix := norm_items items sh in
  if is_int_item (nth (Z.to_nat a) nix NNone) then ~ In (znth a axes) (items_axes items axes)
  else znth (new_axis nix a) (items_axes items axes) = znth a axes
       /\ In (znth a axes) (items_axes items axes).
Proof.
  induction items as [|i r IH]; intros [|n sh] [|x axes] a Hl Hnd Ha nix; cbn in Hl; try lia;
    try (unfold zlen in Ha; cbn in Ha; lia).
  - assert (E : forall k, (k < length (n :: sh))%nat -> is_int_item (nth k nix NNone) = false /\
              zlen (filter (fun i => negb (is_int_item i)) (firstn k nix)) = Z.of_nat k).
    { subst nix. clear. generalize (n :: sh) as l. clear. induction l as [|m l IH]; intros k Hk; [cbn in Hk; lia|].
      destruct k as [|k]; [split; reflexivity|]. cbn [length] in Hk. destruct (IH k ltac:(lia)) as [I1 I2].
      cbn [norm_items nth firstn filter is_int_item negb]. rewrite zlen_cons. split; [exact I1|]. rewrite I2. lia. }
    destruct (E (Z.to_nat a)) as [E1 E2]; [unfold zlen in Ha; lia|]. rewrite E1. cbn [items_axes].
    unfold new_axis. rewrite E2. rewrite Z2Nat.id by lia. split; [reflexivity|].
    unfold znth. apply nth_In. unfold zlen in Ha. cbn [length] in *. lia.
  - inversion Hnd as [|? ? N1 N2]; subst. rewrite zlen_cons in Ha.
    assert (D : a = 0 \/ 0 <= a - 1) by lia. destruct D as [->|D].
    + change (Z.to_nat 0) with 0%nat. subst nix. unfold new_axis. cbn [Z.to_nat firstn filter].
      change (zlen (@nil nind)) with 0.
      destruct i as [z|s| |]; cbn [norm_items nth is_int_item items_axes].
      * intros Hin. apply items_axes_in in Hin. contradiction.
      * split; [reflexivity|now left].
      * split; [reflexivity|now left].
      * split; [reflexivity|now left].
    + specialize (IH sh axes (a - 1) ltac:(lia) N2 ltac:(lia)). cbv zeta in IH.
      assert (E : exists i', nix = i' :: norm_items r sh
                  /\ is_int_item i' = match i with IInt _ => true | _ => false end).
      { subst nix. destruct i; eexists; cbn [norm_items]; split; reflexivity. }
      destruct E as (i' & -> & Ei). 
      replace a with (a - 1 + 1) by lia. rewrite new_axis_cons by lia. rewrite Ei.
      replace (Z.to_nat (a - 1 + 1)) with (S (Z.to_nat (a - 1))) by lia. cbn [nth].
      rewrite (znth_cons x axes) by lia.
      pose proof (new_axis_nonneg (norm_items r sh) (a - 1)) as Hnn.
      assert (Hin : In (znth (a - 1) axes) axes).
      { unfold znth. apply nth_In. unfold zlen in Ha. cbn [length] in *. lia. }
      destruct (is_int_item (nth (Z.to_nat (a - 1)) (norm_items r sh) NNone));
        destruct i as [z|s| |]; cbn [items_axes]; rewrite ?Z.add_0_r; try exact IH;
        try (intros [Hx|Hx]; [subst x; contradiction|contradiction]);
        (destruct IH as [I1 I2]; split; [now rewrite znth_cons by lia|now right]).
Qed.

Definition inb (l : list Z) (a : Z) : bool := existsb (Z.eqb a) l.
Lemma inb_In l a : inb l a = true <-> In a l.
Proof.
  unfold inb. rewrite existsb_exists. split.
  - intros (x & Hx & E). apply Z.eqb_eq in E. now subst.
  - intros H. exists a. split; [exact H|apply Z.eqb_refl].
Qed.

Lemma kept_filter items sh axes g : length axes = length sh -> NoDup axes -> axes_in (zlen sh) g ->
  gather (items_axes items axes) (kept (norm_items items sh) g)
  = filter (inb (items_axes items axes)) (gather axes g).
Proof.
  intros Hl Hnd Ha. induction Ha as [|a g Ha H IH]; [reflexivity|]. cbn [kept flat_map gather map filter].
  pose proof (items_axes_at items sh axes a Hl Hnd Ha) as X. cbv zeta in X.
  destruct (is_int_item (nth (Z.to_nat a) (norm_items items sh) NNone)) eqn:E.
  - replace (inb (items_axes items axes) (znth a axes)) with false; [exact IH|].
    symmetry. apply not_true_is_false. now rewrite inb_In.
  - destruct X as [X1 X2]. rewrite (proj2 (inb_In _ _) X2). cbn [app map]. rewrite X1. f_equal. exact IH.
Qed.

Lemma filter_filter (l : list Z) A B : (forall x, In x B -> In x A) ->
  filter (inb B) (filter (inb A) l) = filter (inb B) l.
Proof.
  intros H. induction l as [|x l IH]; [reflexivity|]. cbn [filter].
  destruct (inb B x) eqn:E.
  - assert (EA : inb A x = true) by (apply inb_In, H, inb_In, E). rewrite EA. cbn [filter]. rewrite E. now f_equal.
  - destruct (inb A x); cbn [filter]; rewrite ?E; exact IH.
Qed.

Lemma zdot_zero g st : length g = length st -> Forall (fun x => 0 < x) st -> Forall (fun x => 0 <= x) g ->
  (zdot g st = 0 <-> Forall (fun x => x = 0) g).
Proof.
  revert st. induction g as [|x g IH]; intros [|y st] Hl Hs Hg; cbn in Hl; try lia; cbn [zdot]; [split; auto; constructor|].
  inversion Hs as [|? ? Hs1 Hs2]; subst. inversion Hg as [|? ? Hg1 Hg2]; subst.
  specialize (IH st ltac:(lia) Hs2 Hg2).
  assert (Hnn : 0 <= zdot g st).
  { clear - Hs2 Hg2. revert st Hs2. induction Hg2 as [|a g Ha H IH]; intros [|b st] Hs; cbn [zdot]; try lia.
    inversion Hs; subst. specialize (IH st ltac:(assumption)). nia. }
  split.
  - intros E. assert (x = 0) by nia. subst. constructor; [reflexivity|]. apply IH. lia.
  - intros E. inversion E as [|? ? E1 E2]; subst. apply IH in E2. lia.
Qed.

Lemma touches_app g p ix sh : touches g (p ++ [ix]) sh -> touches g p sh.
Proof. intros (a & H1 & H2). rewrite chain_axes_app in H2. apply items_axes_in in H2. now exists a. Qed.
Lemma touches_prefix g q : forall p sh, touches g (p ++ q) sh -> touches g p sh.
Proof.
  induction q as [|i q IH] using rev_ind; intros p sh H; [now rewrite app_nil_r in H|].
  rewrite app_assoc in H. apply IH. now apply touches_app in H.
Qed.

Lemma n_offset_step nix sh g st j : positive sh -> normal_index nix sh -> axes_in (zlen sh) g ->
  length g = length st -> in_box j (n_shape nix sh) ->
  zdot (gather (n_source nix sh j) g) st
  = n_offset (gathern nix g) (gather sh g) st + zdot (gather j (kept nix g)) (n_strides (gathern nix g) st).
Proof.
  intros Hp Hn Ha Hl Hj.
  assert (Hg : in_box (gather j (kept nix g)) (n_shape (gathern nix g) (gather sh g))).
  { rewrite gathern_shape by assumption. apply in_box_gather_in; [exact Hj|]. now apply kept_axes_in. }
  assert (Hd := n_offset_dot (gathern nix g) (gather sh g) st (gather j (kept nix g))
                  (gathern_normal _ _ _ Hn Ha) ltac:(rewrite gather_length; congruence) Hg).
  rewrite gathern_source in Hd by (auto; now apply in_box_len). lia.
Qed.

Lemma good_iff sh g0 st0 : axes_in (zlen sh) g0 -> length g0 = length st0 -> Forall (fun x => 0 < x) st0 ->
  forall ixs p g st o, chain_ok (p ++ ixs) sh ->
  length (chain_axes p (zseq (zlen sh))) = length (chain_shape p sh) -> NoDup (chain_axes p (zseq (zlen sh))) ->
  axes_in (zlen (chain_shape p sh)) g -> length g = length st ->
  gather (chain_axes p (zseq (zlen sh))) g = filter (inb (chain_axes p (zseq (zlen sh)))) g0 ->
  (forall j, in_box j (chain_shape p sh) ->
     o + zdot (gather j g) st = zdot (gather (chain_source p sh j) g0) st0) ->
  (g = [] -> o = 0) ->
  (good ixs (chain_shape p sh) g st o
   <-> forall p' ix r, ixs = p' ++ ix :: r -> touches g0 (p ++ p') sh -> ~ touches g0 ((p ++ p') ++ [ix]) sh ->
         forall a, In a g0 -> znth a (chain_start (p ++ p') sh) = 0).
Proof.
  intros Ha0 Hl0 Hs0. induction ixs as [|ix r IH]; intros p g st o Hok Hax Hnd Hag Hlg Hg Hz Hnil.
  { cbn [good]. split; [|auto]. intros _ [|? ?] ? ? E; discriminate E. }
  pose proof (chain_ok_app p (ix :: r) sh Hok) as [Hokp Hokr]. cbn [chain_ok] in Hokr.
  destruct Hokr as (Hp & Hx & Hne & Hokr). set (shp := chain_shape p sh) in *.
  set (axes := chain_axes p (zseq (zlen sh))) in *.
  assert (T : touches g0 p sh <-> g <> []).
  { unfold touches. fold axes. split.
    - intros (a & H1 & H2) ->. cbn [gather map] in Hg.
      assert (H : In a (filter (inb axes) g0)) by (apply filter_In; split; [exact H1|now apply inb_In]).
      rewrite <- Hg in H. exact H.
    - intros H. destruct g as [|x g]; [congruence|].
      assert (H' : In (znth x axes) (filter (inb axes) g0)) by (rewrite <- Hg; now left).
      apply filter_In in H'. destruct H' as [H1 H2]. apply inb_In in H2. now exists (znth x axes). }
  set (nix := norm_items (index_items ix) shp).
  assert (Hn : normal_index nix shp) by (apply norm_items_normal; exact Hp).
  assert (Es : n_shape nix shp = slice_shape ix shp) by (apply norm_items_shape; [exact Hp|apply Hx]).
  assert (Eax : chain_axes (p ++ [ix]) (zseq (zlen sh)) = items_axes (index_items ix) axes) by apply chain_axes_app.
  assert (Hg' : gather (items_axes (index_items ix) axes) (kept nix g)
                = filter (inb (items_axes (index_items ix) axes)) g0).
  { unfold nix. rewrite kept_filter by assumption. rewrite Hg. apply filter_filter.
    intros x. apply items_axes_in. }
  assert (T' : touches g0 (p ++ [ix]) sh <-> kept nix g <> []).
  { unfold touches. rewrite Eax. split.
    - intros (a & H1 & H2) E. rewrite E in Hg'. cbn [gather map] in Hg'.
      assert (H : In a (filter (inb (items_axes (index_items ix) axes)) g0)) by (apply filter_In; split; [exact H1|now apply inb_In]).
      rewrite <- Hg' in H. exact H.
    - intros H. destruct (kept nix g) as [|x t]; [congruence|].
      assert (H' : In (znth x (items_axes (index_items ix) axes)) (filter (inb (items_axes (index_items ix) axes)) g0))
        by (rewrite <- Hg'; now left).
      apply filter_In in H'. destruct H' as [H1 H2]. apply inb_In in H2. eexists. split; eassumption. }
  assert (Z0 : o = 0 <-> forall a, In a g0 -> znth a (chain_start p sh) = 0).
  { pose proof (zero_in_box shp Hp) as Hb. specialize (Hz _ Hb).
    assert (Eo : zdot (gather (map (fun _ : Z => 0) shp) g) st = 0).
    { clear. assert (Z0 : forall a, znth a (map (fun _ : Z => 0) shp) = 0).
      { intros a. unfold znth. generalize (Z.to_nat a). induction shp as [|n l IH]; intros [|k]; cbn; auto. }
      revert st. induction g as [|a g IH]; intros [|x st]; cbn [gather map zdot]; try lia.
      rewrite Z0. specialize (IH st). unfold gather in IH. lia. }
    rewrite Eo, Z.add_0_r in Hz. fold shp in Hz. unfold chain_start. fold shp. rewrite Hz.
    pose proof (chain_source_in_box p sh _ Hokp Hb) as Hb0.
    rewrite zdot_zero; [|now rewrite gather_length|exact Hs0|].
    - rewrite Forall_forall. unfold gather. split.
      + intros H a Hin. apply H. apply in_map_iff. exists a. auto.
      + intros H x Hin. apply in_map_iff in Hin. destruct Hin as (a & <- & Hin). now apply H.
    - pose proof (in_box_gather_in g0 _ sh Hb0 Ha0) as Hb1. clear - Hb1.
      induction Hb1; constructor; auto. lia. }
  cbn [good]. fold nix. destruct (kept nix g) as [|x t] eqn:Ek.
  - assert (NT : ~ touches g0 (p ++ [ix]) sh) by (rewrite T'; tauto). split.
    + intros Ho [|i p'] ix' r' E; injection E as <- E.
      * rewrite app_nil_r. intros _ _. now apply Z0.
      * intros Ht. contradiction NT. replace (p ++ ix :: p') with ((p ++ [ix]) ++ p') in Ht by now rewrite <- app_assoc.
        now apply touches_prefix in Ht.
    + intros H. destruct g as [|y g]; [auto|]. apply Z0. intros a Hin.
      specialize (H [] ix r eq_refl). rewrite !app_nil_r in H. apply H; auto. apply T. discriminate.
  - assert (YT : touches g0 (p ++ [ix]) sh) by (rewrite T'; discriminate). rewrite <- Ek in *.
    replace (slice_shape ix shp) with (chain_shape (p ++ [ix]) sh) by apply chain_shape_app.
    rewrite (IH (p ++ [ix]) (kept nix g) (n_strides (gathern nix g) st) (o + n_offset (gathern nix g) (gather shp g) st)).
    + split.
      * intros H [|i p'] ix' r' E; injection E as <- E.
        -- rewrite !app_nil_r. intros _ HN. contradiction.
        -- intros H1 H2. specialize (H p' ix' r' E).
           replace ((p ++ [ix]) ++ p') with (p ++ ix :: p') in H by now rewrite <- app_assoc.
           now apply H.
      * intros H p' ix' r' E. specialize (H (ix :: p') ix' r').
        replace ((p ++ [ix]) ++ p') with (p ++ ix :: p') by now rewrite <- app_assoc.
        apply H. cbn [app]. now rewrite E.
    + rewrite <- app_assoc. exact Hok.
    + rewrite Eax, chain_shape_app. apply items_axes_length. exact Hax.
    + rewrite Eax. now apply items_axes_NoDup.
    + rewrite chain_shape_app. fold shp. rewrite <- Es. now apply kept_axes_in.
    + rewrite (n_strides_length _ (gather shp g)) by (rewrite gather_length; congruence).
      rewrite gathern_shape by assumption. now rewrite gather_length.
    + rewrite Eax. exact Hg'.
    + intros j Hj. rewrite chain_shape_app in Hj. fold shp in Hj. rewrite <- Es in Hj.
      rewrite chain_source_app. fold shp.
      pose proof (n_offset_step nix shp g st j Hp Hn Hag Hlg Hj) as Hd.
      rewrite <- Z.add_assoc, <- Hd.
      unfold source_index. rewrite <- norm_items_source; [|exact Hp|apply Hx|].
      * fold nix. apply Hz. now apply n_source_in_box.
      * unfold slice_shape in Es. now rewrite <- Es.
    + rewrite Ek. discriminate.
Qed.

Lemma gather_id n g : axes_in n g -> gather (zseq n) g = g.
Proof.
  intros H. induction H as [|a g Ha H IH]; [reflexivity|]. cbn [gather map]. unfold gather in IH. rewrite IH. f_equal.
  unfold znth, zseq. rewrite nth_indep with (d' := Z.of_nat 0) by (rewrite map_length, seq_length; lia).
  rewrite map_nth, seq_nth by lia. lia.
Qed.

Lemma good_composes sh ixs g st : axes_in (zlen sh) g -> length g = length st -> Forall (fun x => 0 < x) st ->
  chain_ok ixs sh -> (good ixs sh g st 0 <-> group_composes sh ixs g).
Proof.
  intros Ha Hl Hs Hok. unfold group_composes.
  apply (good_iff sh g st Ha Hl Hs ixs [] g st 0); cbn [app chain_axes chain_shape]; auto.
  - rewrite zseq_length_nat. unfold zlen. lia.
  - apply NoDup_zseq.
  - rewrite gather_id by assumption. symmetry. clear - Ha.
    assert (E : forall l, Forall (fun a => inb (zseq (zlen sh)) a = true) l -> filter (inb (zseq (zlen sh))) l = l).
    { induction l as [|x l IH]; intros H; [reflexivity|]. inversion H as [|? ? H1 H2]; subst. cbn [filter]. rewrite H1.
      f_equal. now apply IH. }
    apply E. eapply Forall_impl; [|exact Ha]. cbn. intros a Hb. apply inb_In, In_zseq. exact Hb.
Qed.

(** The form of a newly built DM array. *)
Lemma built_form h h1 sh rd rsh rs ro d : built_dm h h1 (SDM sh rd rsh rs ro d) ->
  positive sh /\ Permutation (concat rd) (zseq (zlen sh))
  /\ rs = group_strides sh rd /\ ro = repeat 0 (length rd) /\ shape_of d = group_shape sh rd.
Proof.
  intros Hb. pose proof (built_dm_ok h h1 _ Hb) as (f & Hr & _ & _ & Hp). cbn [shape_of] in Hp.
  pose proof Hr as (g & _ & Hd & _). split; [exact Hp|]. split; [exact (dm_perm _ _ _ _ _ _ Hd)|].
  clear Hr Hd g f. remember (SDM sh rd rsh rs ro d) as s eqn:Es.
  destruct Hb as [v sh0 u dimensions partitioning c s0 h0 Hreg Hp0 [Hn Hd Hpart] Hc Hsp E
         |t u dimensions partitioning c s0 h0 [f Hr] Hp0 [Hn Hd Hpart] Hc Hst E].
  - assert (Hsrc : source_repr h (SrcSeq v) (nested_elem v)).
    { exists sh0. split; [exact Hreg|reflexivity]. }
    pose proof (source_reads h (SrcSeq v) (nested_elem v) u Hsrc) as Hreads.
    cbn [get_shape] in Hreads. rewrite (regular_shape sh0 v Hreg) in Hreads.
    pose proof (dm_args_strict (dm_is_buffer c) _ _ _ Hn Hd Hpart) as Ha.
    destruct (dm_fromobject_ok c h (SrcSeq v) (fo_unspecified u) dimensions partitioning sh0 _ Hreads Hp0 Ha)
      as (d0 & h1 & E1 & E2 & _).
    { apply (dm_class_ok_intro c sh0 dimensions partitioning (chosen VNone u)
               (fo_value (SrcSeq v) (fo_unspecified u) (nested_elem v))); auto.
      intros Ec. destruct (Hsp Ec) as (i & x & Hi & Hx & N1 & N2). exists i. split; [exact Hi|].
      unfold fo_value, nested_elem. rewrite Hx. now apply conv_differs. }
    rewrite E1, Es in E. injection E as <- <- <- <- <- <- <-. auto.
  - assert (Hne : shape_of t <> []) by (intros E'; rewrite E' in Hn; discriminate).
    pose proof (dm_args_strict (dm_is_buffer c) _ _ _ Hn Hd Hpart) as Ha.
    pose proof (storage_reads h t f (Some (shape_of t)) u Hr Hne eq_refl) as Hreads.
    destruct (dm_fromobject_ok c h (SrcSto t) (FO (Some (shape_of t)) None u) dimensions partitioning _ f Hreads Hp0 Ha)
      as (d0 & h1 & E1 & E2 & _).
    { apply (dm_class_ok_intro c (shape_of t) dimensions partitioning (chosen (unspecified_of t) u)
               (fo_value (SrcSto t) (FO (Some (shape_of t)) None u) f)); auto.
      intros Ec. exact (stays_specified h t f _ Hr (Hst Ec)). }
    unfold as_DM in E. rewrite E1, Es in E. injection E as <- <- <- <- <- <- <-. auto.
Qed.

Lemma make_strides_positive sh : positive sh -> Forall (fun x => 0 < x) (make_strides sh).
Proof.
  intros H. rewrite <- c_strides_make. induction H as [|n sh Hn H IH]; cbn [c_strides]; constructor; auto.
  clear - H. induction H; cbn [fold_right]; lia.
Qed.

Lemma goods_composes sh ixs : positive sh -> chain_ok ixs sh -> forall rd, axes_in (zlen sh) (concat rd) ->
  (Forall (fun P => P) (goods ixs sh rd (group_strides sh rd) (repeat 0 (length rd)))
   <-> forall g, In g rd -> group_composes sh ixs g).
Proof.
  intros Hp Hok. induction rd as [|g rd IH]; intros Ha; cbn [goods group_strides map length repeat].
  - split; [intros _ g []|constructor].
  - cbn [concat] in Ha. apply Forall_app in Ha. destruct Ha as [A1 A2]. specialize (IH A2).
    assert (G : good ixs sh g (make_strides (gather sh g)) 0 <-> group_composes sh ixs g).
    { apply good_composes; auto.
      - now rewrite make_strides_length, gather_length.
      - apply make_strides_positive. eapply gather_positive; [exact A1|reflexivity|exact Hp]. }
    split.
    + intros H. inversion H as [|? ? H1 H2]; subst. intros g' [<-|Hin]; [now apply G|].
      apply (proj1 IH); [exact H2|exact Hin].
    + intros H. constructor; [apply G, H; now left|]. apply IH. intros g' Hin. apply H. now right.
Qed.

(** * C30 *)

(** Chains that compose: when an index drops the last axes of a group, the array
    it is applied to starts at index 0 on the axes of that group. *)
Theorem C30_composing_chains_partial : forall h h1 sh rd rsh rs ro data ixs,
  let d := SDM sh rd rsh rs ro data in
  built_dm h h1 d -> not_dm data -> chain_ok ixs sh ->
  (forall g, In g rd -> group_composes sh ixs g) ->
  exists s' h2, getitems h1 d ixs = Ok (s', h2)
    /\ valid h2 s' /\ extends h1 h2 /\ chain_elements h1 d ixs h2 s'.
Proof.
  intros h h1 sh rd rsh rs ro data ixs d Hb Hnd Hok Hg.
  destruct (built_form _ _ _ _ _ _ _ _ Hb) as (Hp & Hperm & -> & -> & Hsh).
  destruct (built_dm_ok h h1 _ Hb) as (f & Hr & _). pose proof Hr as (g & Hd & Hdm & Hf).
  destruct (getitems_dm ixs h1 _ _ _ _ _ data g Hd Hnd Hdm Hok) as (s' & h2 & E1 & E2 & E3 & E4 & place & E5 & E6).
  exists s', h2. split; [exact E1|]. split; [eexists; exact E5|]. split; [exact E4|].
  apply (chain_elements_repr h1 d f); auto. eapply repr_ext; [|exact E5]. cbn beta. intros j Hj. rewrite E2 in Hj.
  destruct (E6 j Hj) as [B C]. cbn [d shape_of]. rewrite Hf by now apply chain_source_in_box. f_equal.
  apply cmp_eq in C. apply C. now apply goods_composes; [| |apply perm_axes|].
Qed.
Print Assumptions C30_composing_chains_partial.

(** The other chains do not: if the elements of the array are pairwise different,
    every element of the result is a wrong one. *)
Theorem C30_other_chains_are_wrong : forall h h1 sh rd rsh rs ro data ixs,
  let d := SDM sh rd rsh rs ro data in
  built_dm h h1 d -> not_dm data -> chain_ok ixs sh ->
  (forall i j, in_box i sh -> in_box j sh -> get_elem h1 d i = get_elem h1 d j -> i = j) ->
  ~ (forall g, In g rd -> group_composes sh ixs g) ->
  exists s' h2, getitems h1 d ixs = Ok (s', h2) /\ valid h2 s'
    /\ shape_of s' = chain_shape ixs sh
    /\ forall j, in_box j (chain_shape ixs sh) ->
         exists x, get_elem h2 s' j = Ok x /\ get_elem h1 d (chain_source ixs sh j) <> Ok x.
Proof.
  intros h h1 sh rd rsh rs ro data ixs d Hb Hnd Hok Hinj Hg.
  destruct (built_form _ _ _ _ _ _ _ _ Hb) as (Hp & Hperm & -> & -> & Hsh).
  destruct (built_dm_ok h h1 _ Hb) as (f & Hr & _). pose proof Hr as (g & Hd & Hdm & Hf).
  destruct (getitems_dm ixs h1 _ _ _ _ _ data g Hd Hnd Hdm Hok) as (s' & h2 & E1 & E2 & E3 & E4 & place & E5 & E6).
  exists s', h2. split; [exact E1|]. split; [eexists; exact E5|]. split; [exact E2|].
  intros j Hj. exists (g (place j)). split; [apply (repr_get h2 s' _ j E5); now rewrite E2|].
  destruct (E6 j Hj) as [B C]. pose proof (chain_source_in_box ixs sh j Hok Hj) as Hc.
  rewrite (repr_get h1 d f _ Hr Hc). intros E. injection E as E. rewrite Hf in E by exact Hc.
  apply Hg. apply (goods_composes sh ixs Hp Hok rd (perm_axes _ _ Hperm)). apply (cmp_eq _ _ _ C).
  rewrite Hsh in B. destruct (reduce_promote sh rd (place j) Hp Hperm B) as (i & _ & Hi & Ei).
  rewrite <- dm_index_group in Ei. rewrite <- Ei in E |- *. rewrite <- (Hf i Hi), <- Hf in E by exact Hc.
  f_equal. symmetry. apply Hinj; [exact Hc|exact Hi|].
  rewrite (repr_get h1 d f _ Hr Hc), (repr_get h1 d f _ Hr Hi). now f_equal.
Qed.
Print Assumptions C30_other_chains_are_wrong.

(** A DM array of shape (2, 2, 2) with the groups of axes (0, 1) and (2).  The
    chain [x[1:, :, ::-1][:, 1]] drops axis 1 of an array that starts at index 1 on
    axis 0; axis 0 is left, so it composes.  The chain [x[1:, :][0, 1]] drops both
    axes of the group and does not; with the first slice [x[:1, :]] it does. *)
Definition composing_chain : list pyindex :=
  [XTuple [ISlice (Sl (Some 1) None None); INone; ISlice (Sl None None (Some (-1)))]; XTuple [INone; IInt 1]].
Definition dropping_chain (s : pyslice) : list pyindex :=
  [XTuple [ISlice s; INone]; XTuple [IInt 0; IInt 1]].

Example C30_composes_case :
  (forall g, In g [[0; 1]; [2]] -> group_composes [2; 2; 2] composing_chain g)
  /\ (forall g, In g [[0; 1]; [2]] -> group_composes [2; 2; 2] (dropping_chain (Sl None (Some 1) None)) g)
  /\ ~ group_composes [2; 2; 2] (dropping_chain (Sl (Some 1) None None)) [0; 1]
  /\ chain_ok composing_chain [2; 2; 2] /\ chain_ok (dropping_chain (Sl (Some 1) None None)) [2; 2; 2].
Proof.
  assert (Tch : forall g p sh a, inb g a = true -> inb (chain_axes p (zseq (zlen sh))) a = true -> touches g p sh).
  { intros g p sh a H1 H2. exists a. now rewrite <- !inb_In. }
  split; [|split; [|split; [|split]]].
  - intros g [<-|[<-|[]]] [|p1 [|p2 p]] ix r E; try (destruct p; discriminate E); injection E; clear E; intros; subst;
      exfalso; match goal with H : ~ touches _ _ _ |- _ => apply H end;
      first [now apply (Tch _ _ _ 0)|now apply (Tch _ _ _ 2)].
  - intros g [<-|[<-|[]]] [|p1 [|p2 p]] ix r E; try (destruct p; discriminate E); injection E; clear E; intros; subst.
    + exfalso; match goal with H : ~ touches _ _ _ |- _ => apply H end; now apply (Tch _ _ _ 0).
    + match goal with H : In _ _ |- _ => destruct H as [<-|[<-|[]]]; reflexivity end.
    + exfalso; match goal with H : ~ touches _ _ _ |- _ => apply H end; now apply (Tch _ _ _ 2).
    + exfalso; match goal with H : ~ touches _ _ _ |- _ => apply H end; now apply (Tch _ _ _ 2).
  - intros H. specialize (H [XTuple [ISlice (Sl (Some 1) None None); INone]] (XTuple [IInt 0; IInt 1]) [] eq_refl).
    assert (X : znth 0 (chain_start [XTuple [ISlice (Sl (Some 1) None None); INone]] [2; 2; 2]) = 0).
    { apply H; [now apply (Tch _ _ _ 0)| |now left]. intros (a & [<-|[<-|[]]] & [Ha|[]]); discriminate Ha. }
    discriminate X.
  - unfold composing_chain. cbn [chain_ok].
    change (slice_shape (XTuple [ISlice (Sl (Some 1) None None); INone; ISlice (Sl None None (Some (-1)))]) [2; 2; 2]) with [1; 2; 2].
    change (slice_shape (XTuple [INone; IInt 1]) [1; 2; 2]) with [1; 2].
    split; [repeat constructor; lia|]. split; [split; [repeat constructor; cbn; lia|right; cbn; lia]|].
    split; [discriminate|]. split; [repeat constructor; lia|].
    split; [split; [repeat constructor; cbn; lia|right; cbn; lia]|]. split; [discriminate|exact I].
  - unfold dropping_chain. cbn [chain_ok].
    change (slice_shape (XTuple [ISlice (Sl (Some 1) None None); INone]) [2; 2; 2]) with [1; 2; 2].
    change (slice_shape (XTuple [IInt 0; IInt 1]) [1; 2; 2]) with [2].
    split; [repeat constructor; lia|]. split; [split; [repeat constructor; cbn; lia|right; cbn; lia]|].
    split; [discriminate|]. split; [repeat constructor; lia|].
    split; [split; [repeat constructor; cbn; lia|right; cbn; lia]|]. split; [discriminate|exact I].
Qed.

(** The same chains run: 4..7 are the elements of [x[1]]. *)
Example C30_chains_run :
  let run ixs :=
    '(s, h) <- dm_fromobject [] (SrcSeq nested_2x2x2) (fo_unspecified None) None None CStrided ;;
    '(v, h1) <- getitems h s ixs ;;
    e <- elements h1 v ;; Ok (shape_of v, e) in
  run composing_chain = Ok ([1; 2], [(KTup [0; 0], VInt 7); (KTup [0; 1], VInt 6)])
  /\ run (dropping_chain (Sl None (Some 1) None)) = Ok ([2], [(KTup [0], VInt 2); (KTup [1], VInt 3)])
  /\ run (dropping_chain (Sl (Some 1) None None)) = Ok ([2], [(KTup [0], VInt 2); (KTup [1], VInt 3)]).
Proof. vm_compute. auto. Qed.

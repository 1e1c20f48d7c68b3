(** Chains of slices of a DM array, with no condition on the chain: which element
    of the data each element of the result is. *)
From Coq Require Import Sorting.Sorted Permutation ZifyBool.
From Verif Require Import Py SliceTools Basics Storage Spec SliceFacts IndexFacts
  CompressFacts ReduceFacts SolverFacts SolveFacts Repr ReprFacts ViewFacts BuildFacts SparseFacts
  ConvFacts FromFacts DMFacts ReadFacts MapFacts ChainFacts.

(** The data of the DM array is not itself a DM array. *)
Definition not_dm (s : storage) : Prop := match s with SDM _ _ _ _ _ _ => False | _ => True end.

Lemma slice_not_dm s h f ix s' h' : repr h s f -> not_dm s -> positive (shape_of s) -> ok_index ix (shape_of s) ->
  slice_shape ix (shape_of s) <> [] -> safe_index s ix ->
  getitem h s ix = Ok (ISto s', h') -> not_dm s'.
Proof.
  intros Hr Hs Hp Hok Hne Hsafe E. destruct s as [b|t|sh ind d|sh fi d|sh cr co d|sh ch a b c d|sh rd rsh rs ro d];
    try contradiction.
  - destruct Hsafe as [->| ->]; cbn in E; injection E as <- <-; exact I.
  - destruct (slice_plain _ h f ix Hr I Hp Hok Hne) as (s2 & h2 & X1 & _ & _ & _ & _ & X6 & _).
    rewrite E in X1. injection X1 as <- <-. destruct s'; try contradiction; exact I.
  - destruct (slice_plain _ h f ix Hr I Hp Hok Hne) as (s2 & h2 & X1 & _ & _ & _ & _ & X6 & _).
    rewrite E in X1. injection X1 as <- <-. destruct s'; try contradiction; exact I.
  - destruct (slice_plain _ h f ix Hr I Hp Hok Hne) as (s2 & h2 & X1 & _ & _ & _ & _ & X6 & _).
    rewrite E in X1. injection X1 as <- <-. destruct s'; try contradiction; exact I.
  - destruct (slice_plain _ h f ix Hr I Hp Hok Hne) as (s2 & h2 & X1 & _ & _ & _ & _ & X6 & _).
    rewrite E in X1. injection X1 as <- <-. destruct s'; try contradiction; exact I.
  - destruct Hr as (E' & HE & _). destruct HE.
Qed.

(** What remains true of a slice when the offsets of fixed groups are dropped. *)
Lemma slice_groups_box nix sh j : positive sh -> normal_index nix sh -> in_box j (n_shape nix sh) ->
  forall rdims rstrides roffset ds,
  axes_in (zlen sh) (concat rdims) -> Forall2 (fun g st => length g = length st) rdims rstrides ->
  length roffset = length rdims ->
  in_box (dm_index rdims rstrides roffset (n_source nix sh j)) ds ->
  let '(ro, rs, di, rd) := slice_groups nix sh rdims rstrides roffset in
  in_box (dm_index rd rs ro j) (items_shape di ds).
Proof.
  intros Hp Hn Hj. induction rdims as [|g gs IH]; intros rstrides roffset ds Ha Hs Ho Hb; cbn [slice_groups].
  - cbn [dm_index] in *. inversion Hb; subst. constructor.
  - inversion Hs as [|? st ? sts H1 H2]; subst. destruct roffset as [|o os]; [discriminate|].
    cbn [concat] in Ha. apply Forall_app in Ha. destruct Ha as [Ha1 Ha2].
    cbn [dm_index] in Hb |- *. inversion Hb as [|x n xs ns Hx Hb']; subst.
    specialize (IH sts os ns Ha2 H2 ltac:(cbn in Ho; lia) Hb').
    destruct (slice_groups nix sh gs sts os) as [[[ro rs] di] rd].
    assert (Hg : in_box (gather j (kept nix g)) (n_shape (gathern nix g) (gather sh g))).
    { rewrite gathern_shape by assumption. apply in_box_gather_in; [exact Hj|]. now apply kept_axes_in. }
    assert (Hd := n_offset_dot (gathern nix g) (gather sh g) st (gather j (kept nix g))
                    (gathern_normal _ _ _ Hn Ha1) ltac:(rewrite gather_length; congruence) Hg).
    rewrite gathern_source in Hd by (auto; now apply in_box_len).
    destruct (kept nix g) as [|y t] eqn:E.
    + cbn [items_shape]. exact IH.
    + cbn [items_shape dm_index]. constructor; [|exact IH]. lia.
Qed.

(** Two elements of the slice with the same place in the sliced data come from
    elements with the same place in the data. *)
Lemma slice_groups_same nix sh j j' : positive sh -> normal_index nix sh ->
  in_box j (n_shape nix sh) -> in_box j' (n_shape nix sh) ->
  forall rdims rstrides roffset,
  axes_in (zlen sh) (concat rdims) -> Forall2 (fun g st => length g = length st) rdims rstrides ->
  length roffset = length rdims ->
  let '(ro, rs, di, rd) := slice_groups nix sh rdims rstrides roffset in
  dm_index rd rs ro j = dm_index rd rs ro j' ->
  dm_index rdims rstrides roffset (n_source nix sh j) = dm_index rdims rstrides roffset (n_source nix sh j').
Proof.
  intros Hp Hn Hj Hj'. induction rdims as [|g gs IH]; intros rstrides roffset Ha Hs Ho; cbn [slice_groups].
  - reflexivity.
  - inversion Hs as [|? st ? sts H1 H2]; subst. destruct roffset as [|o os]; [discriminate|].
    cbn [concat] in Ha. apply Forall_app in Ha. destruct Ha as [Ha1 Ha2].
    specialize (IH sts os Ha2 H2 ltac:(cbn in Ho; lia)).
    destruct (slice_groups nix sh gs sts os) as [[[ro rs] di] rd].
    assert (D : forall k, in_box k (n_shape nix sh) ->
       zdot (gather (n_source nix sh k) g) st
       = n_offset (gathern nix g) (gather sh g) st + zdot (gather k (kept nix g)) (n_strides (gathern nix g) st)).
    { intros k Hk.
      assert (Hg : in_box (gather k (kept nix g)) (n_shape (gathern nix g) (gather sh g))).
      { rewrite gathern_shape by assumption. apply in_box_gather_in; [exact Hk|]. now apply kept_axes_in. }
      assert (Hd := n_offset_dot (gathern nix g) (gather sh g) st (gather k (kept nix g))
                      (gathern_normal _ _ _ Hn Ha1) ltac:(rewrite gather_length; congruence) Hg).
      rewrite gathern_source in Hd by (auto; now apply in_box_len). lia. }
    cbn [dm_index]. rewrite (D j Hj), (D j' Hj'). clear D.
    destruct (kept nix g) as [|y t] eqn:E.
    + intros Heq. cbn [gather map zdot]. f_equal. now apply IH.
    + cbn [dm_index]. intros Heq. pose proof (f_equal (hd 0) Heq) as Hq. apply (f_equal (@tl Z)) in Heq.
      cbn [hd tl] in Hq, Heq. f_equal; [lia|]. now apply IH.
Qed.

(** A slice of a DM array over data of another class. *)
Lemma getitem_dm_any h sh rd rsh rs ro d g ix :
  repr h d g -> not_dm d -> dm_ok sh rd rsh rs ro (shape_of d) -> positive sh -> ok_index ix sh ->
  slice_shape ix sh <> [] ->
  let nix := norm_items (index_items ix) sh in
  let '(ro', rs', di, rd') := slice_groups nix sh rd rs ro in
  exists d' h', getitem h (SDM sh rd rsh rs ro d) ix
      = Ok (ISto (SDM (slice_shape ix sh) rd' (map (gather (slice_shape ix sh)) rd') rs' ro' d'), h')
    /\ shape_of d' = items_shape di (shape_of d)
    /\ unspecified_of d' = unspecified_of d
    /\ extends h h'
    /\ repr h' d' (fun j => g (items_source di (shape_of d) j))
    /\ not_dm d'
    /\ positive (shape_of d)
    /\ Forall plain_item di /\ length di = length (shape_of d)
    /\ dm_ok (slice_shape ix sh) rd' (map (gather (slice_shape ix sh)) rd') rs' ro' (shape_of d').
Proof.
  intros Hd Hnd Hdm Hp Hok Hne nix. pose proof Hok as [Hitems _]. set (items := index_items ix) in *.
  assert (Hn : normal_index nix sh) by now apply norm_items_normal.
  assert (Es : n_shape nix sh = slice_shape ix sh) by now apply norm_items_shape.
  pose proof Hdm as [Dn Dg Dp Drs Dst Dro Dbox Dinj].
  assert (Haxes : axes_in (zlen sh) (concat rd)) by now apply perm_axes.
  cbn [getitem]. rewrite normalize_index_ok by assumption. fold items. fold nix. cbn [bind].
  assert (Eel : is_element_index nix sh = false).
  { apply not_true_iff_false. intros E. apply element_n_shape in E; [|exact Hn]. congruence. }
  rewrite Eel. rewrite normal_index_id by assumption. cbn [bind].
  rewrite shape_strided_ok by assumption. cbn [bind]. rewrite Drs.
  rewrite dm_slice_groups_ok by assumption. cbn [bind].
  pose proof (slice_groups_lengths nix sh rd rs ro Dst Dro) as L.
  pose proof (slice_groups_strides nix sh Hn rd rs ro Haxes Dst Dro) as S.
  pose proof (fun j Hj => slice_groups_box nix sh j Hp Hn Hj rd rs ro (shape_of d) Haxes Dst Dro
                            (Dbox _ (n_source_in_box nix sh j Hp Hn Hj))) as X.
  pose proof (fun j j' Hj Hj' => slice_groups_same nix sh j j' Hp Hn Hj Hj' rd rs ro Haxes Dst Dro) as Q.
  pose proof (zero_in_box sh Hp) as Horigin.
  assert (Hpd : positive (shape_of d)) by exact (in_box_positive _ _ (Dbox _ Horigin)).
  assert (Hld : length (shape_of d) = length rd).
  { symmetry. exact (proj1 (dm_rank _ _ _ _ _ _ Hdm Hp)). }
  destruct (slice_groups nix sh rd rs ro) as [[[ro' rs'] di] rd'].
  destruct L as (L1 & L2 & L3 & L4 & L5 & L6).
  assert (Hrd' : Permutation (concat rd') (zseq (zlen (n_shape nix sh)))).
  { rewrite L3. assert (C : forall l : list (list Z), concat (filter (fun t => match t with [] => false | _ => true end) l) = concat l).
    { induction l as [|[|z l0] l IHl]; cbn [filter concat app]; auto. now rewrite IHl. }
    rewrite C. now apply kept_perm. }
  assert (Hrdne : rd' <> []).
  { intros ->. cbn [concat] in Hrd'. apply Permutation_length in Hrd'. rewrite zseq_length_nat in Hrd'.
    rewrite Es in Hrd'. destruct (slice_shape ix sh); [congruence|]. unfold zlen in Hrd'. cbn [length] in Hrd'. lia. }
  assert (Hokd : ok_index (XTuple di) (shape_of d)).
  { split; [|right; cbn [index_items]; lia]. cbn [index_items]. eapply Forall_impl; [|exact L5].
    intros [| | |]; cbn; tauto. }
  assert (Hned : slice_shape (XTuple di) (shape_of d) <> []).
  { unfold slice_shape. cbn [index_items]. intros E. specialize (L6 (shape_of d) Hld). rewrite E in L6.
    destruct rd'; [congruence|discriminate]. }
  assert (Hsd : safe_index d (XTuple di)).
  { destruct d; try exact I; [|contradiction]. cbn [safe_index]. right. cbn [shape_of length] in Hld.
    destruct di as [|i [|? ?]]; cbn [length] in L2; try lia.
    apply Forall_inv in L5. destruct i as [z|sl| |]; try contradiction. reflexivity. }
  destruct (getitem_slice d h g (XTuple di) Hd Hpd Hokd Hned Hsd) as (d' & h' & Y1 & Y2 & Y3 & Y4 & Y5 & _).
  destruct di as [|i0 di0] eqn:Edi; [cbn in L2; destruct rd; [congruence|discriminate]|]. rewrite <- Edi in *.
  rewrite Y1. cbn [bind]. rewrite mk_dm_ok by assumption. cbn [bind]. rewrite Es.
  exists d', h'. split; [reflexivity|]. split; [exact Y2|]. split; [exact Y3|]. split; [exact Y4|].
  split; [exact Y5|]. split; [exact (slice_not_dm d h g (XTuple di) d' h' Hd Hnd Hpd Hokd Hned Hsd Y1)|]. split; [exact Hpd|]. split; [exact L5|].
  split; [lia|]. rewrite <- Es. constructor; auto.
  - now apply n_shape_nonneg.
  - intros j Hj. rewrite Y2. apply X. exact Hj.
  - intros j j' Hj Hj' Hjj. apply (n_source_inj nix sh j j' Hn Hj Hj').
    apply Dinj; try (apply n_source_in_box; assumption). now apply Q.
Qed.

(** The group with axes [g], strides [st] and offset [o] is read at the right
    place by the chain. *)
Fixpoint good (ixs : list pyindex) (sh : list Z) (g st : list Z) (o : Z) : Prop :=
  match ixs with
  | [] => True
  | ix :: r =>
      let nix := norm_items (index_items ix) sh in
      match kept nix g with
      | [] => o = 0
      | t => good r (slice_shape ix sh) t (n_strides (gathern nix g) st)
                  (o + n_offset (gathern nix g) (gather sh g) st)
      end
  end.

(** [cmp Ps xs ys]: the lists are equal exactly where the propositions hold. *)
Inductive cmp : list Prop -> list Z -> list Z -> Prop :=
| cmp_nil : cmp [] [] []
| cmp_cons (P : Prop) x y Ps xs ys : (x = y <-> P) -> cmp Ps xs ys -> cmp (P :: Ps) (x :: xs) (y :: ys).

Lemma cmp_inv P Ps x xs y ys : cmp (P :: Ps) (x :: xs) (y :: ys) -> (x = y <-> P) /\ cmp Ps xs ys.
Proof. intros H. inversion H; subst. auto. Qed.

Fixpoint goods (ixs : list pyindex) (sh : list Z) (rd rs : list (list Z)) (ro : list Z) : list Prop :=
  match rd, rs, ro with
  | g :: gs, st :: sts, o :: os => good ixs sh g st o :: goods ixs sh gs sts os
  | _, _, _ => []
  end.

Lemma cmp_refl Ps : forall xs, length Ps = length xs -> Forall (fun P => P) Ps -> cmp Ps xs xs.
Proof.
  induction Ps as [|P Ps IH]; intros [|x xs] Hl HP; cbn in Hl; try lia; constructor.
  - inversion HP; tauto.
  - apply IH; [lia|now inversion HP].
Qed.

Lemma cmp_eq Ps xs ys : cmp Ps xs ys -> (xs = ys <-> Forall (fun P => P) Ps).
Proof.
  intros H. induction H as [|P x y Ps xs ys H1 H2 IH]; [split; auto|]. split.
  - intros E. injection E as -> ->. constructor; tauto.
  - intros E. inversion E; subst. f_equal; tauto.
Qed.

Lemma goods_length ixs sh : forall rd rs ro, Forall2 (fun g st : list Z => length g = length st) rd rs ->
  length ro = length rd -> length (goods ixs sh rd rs ro) = length rd.
Proof.
  induction rd as [|g gs IH]; intros rs ro Hs Ho; [reflexivity|].
  inversion Hs as [|? st ? sts H1 H2]; subst. destruct ro as [|o os]; [discriminate|]. cbn [goods length].
  rewrite IH; auto.
Qed.

Lemma goods_nil sh : forall rd rs ro, Forall (fun P => P) (goods [] sh rd rs ro).
Proof. induction rd as [|g gs IH]; intros [|st sts] [|o os]; cbn [goods good]; constructor; auto. Qed.

(** One slice: where the places agree. *)
Lemma step_cmp ix r sh j : positive sh -> Forall ok_item (index_items ix) ->
  let nix := norm_items (index_items ix) sh in
  in_box j (n_shape nix sh) ->
  forall rdims rstrides roffset ds,
  axes_in (zlen sh) (concat rdims) -> Forall2 (fun g st => length g = length st) rdims rstrides ->
  length roffset = length rdims ->
  in_box (dm_index rdims rstrides roffset (n_source nix sh j)) ds -> in_box roffset ds ->
  let '(ro, rs, di, rd) := slice_groups nix sh rdims rstrides roffset in
  forall y, in_box y (items_shape di ds) ->
  cmp (goods r (slice_shape ix sh) rd rs ro) y (dm_index rd rs ro j) ->
  in_box (items_source di ds y) ds
  /\ cmp (goods (ix :: r) sh rdims rstrides roffset) (items_source di ds y)
         (dm_index rdims rstrides roffset (n_source nix sh j)).
Proof.
  intros Hp Hi nix Hj. assert (Hn : normal_index nix sh) by now apply norm_items_normal.
  induction rdims as [|g gs IH]; intros rstrides roffset ds Ha Hs Ho Hb Hro; cbn [slice_groups].
  - cbn [dm_index] in *. inversion Hb; subst. intros y Hy Hc. inversion Hy; subst. split; constructor.
  - inversion Hs as [|? st ? sts H1 H2]; subst. destruct roffset as [|o os]; [discriminate|].
    cbn [concat] in Ha. apply Forall_app in Ha. destruct Ha as [Ha1 Ha2].
    cbn [dm_index] in Hb |- *. inversion Hb as [|x n xs ns Hx Hb']; subst.
    inversion Hro as [|? ? ? ? Hon Hons]; subst. assert (Hpn : 0 < n) by lia.
    specialize (IH sts os ns Ha2 H2 ltac:(cbn in Ho; lia) Hb' Hons).
    destruct (slice_groups nix sh gs sts os) as [[[ro rs] di] rd].
    assert (Hg : in_box (gather j (kept nix g)) (n_shape (gathern nix g) (gather sh g))).
    { rewrite gathern_shape by assumption. apply in_box_gather_in; [exact Hj|]. now apply kept_axes_in. }
    assert (Hd := n_offset_dot (gathern nix g) (gather sh g) st (gather j (kept nix g))
                    (gathern_normal _ _ _ Hn Ha1) ltac:(rewrite gather_length; congruence) Hg).
    rewrite gathern_source in Hd by (auto; now apply in_box_len).
    cbn [goods good]. fold nix. set (k := n_offset (gathern nix g) (gather sh g) st) in *.
    destruct (kept nix g) as [|z t] eqn:E; cbn [items_shape items_source].
    + intros y Hy Hc. destruct (IH y Hy Hc) as [I1 I2]. pose proof (Z.mod_pos_bound k n Hpn) as Hm.
      split; [constructor; [exact Hm|exact I1]|]. constructor; [|exact I2].
      cbn [gather map zdot] in Hd. assert (Ek : zdot (gather (n_source nix sh j) g) st = k) by lia.
      rewrite Ek in *. split.
      * intros Hk.
        assert (Hdiv : o = n * (- (k / n))) by (pose proof (Z.div_mod k n ltac:(lia)); lia).
        destruct (Z.eq_dec (k / n) 0) as [E0|E0]; [rewrite E0 in Hdiv; lia|].
        assert (k / n <= -1 \/ 1 <= k / n) by lia. nia.
      * intros ->. rewrite Z.mod_small by lia. lia.
    + intros y Hy Hc. inversion Hy as [|y0 ? y' ? Hy0 Hy']; subst. cbn [goods dm_index] in Hc.
      apply cmp_inv in Hc. destruct Hc as [Hab Hc'].
      destruct (IH y' Hy' Hc') as [I1 I2]. split; [constructor; [exact Hy0|exact I1]|].
      constructor; [|exact I2].
      rewrite <- Hab. clear - Hd. lia.
Qed.

Lemma dm_index_origin : forall rd rs ro sh, Forall2 (fun g st : list Z => length g = length st) rd rs ->
  length ro = length rd -> dm_index rd rs ro (map (fun _ : Z => 0) sh) = ro.
Proof.
  induction rd as [|g gs IH]; intros rs ro sh Hs Ho; [destruct ro; [reflexivity|discriminate]|].
  inversion Hs as [|? st ? sts H1 H2]; subst. destruct ro as [|o os]; [discriminate|]. cbn [dm_index].
  rewrite IH; [|exact H2|cbn in Ho; lia]. f_equal.
  assert (Z0 : forall a, znth a (map (fun _ : Z => 0) sh) = 0).
  { intros a. unfold znth. generalize (Z.to_nat a). clear. induction sh as [|n sh IH]; intros [|k]; cbn; auto. }
  clear - Z0. revert st. induction g as [|a g IH]; intros [|x st]; cbn [gather map zdot]; try lia.
  rewrite Z0. specialize (IH st). unfold gather in IH. lia.
Qed.

Lemma getitems_dm : forall ixs h sh rd rsh rs ro d g,
  repr h d g -> not_dm d -> dm_ok sh rd rsh rs ro (shape_of d) -> chain_ok ixs sh ->
  exists s' h', getitems h (SDM sh rd rsh rs ro d) ixs = Ok (s', h')
    /\ shape_of s' = chain_shape ixs sh
    /\ unspecified_of s' = unspecified_of d
    /\ extends h h'
    /\ exists place, repr h' s' (fun j => g (place j))
         /\ forall j, in_box j (chain_shape ixs sh) ->
              in_box (place j) (shape_of d)
              /\ cmp (goods ixs sh rd rs ro) (place j) (dm_index rd rs ro (chain_source ixs sh j)).
Proof.
  induction ixs as [|ix r IH]; intros h sh rd rsh rs ro d g Hd Hnd Hdm Hok; cbn [getitems chain_shape chain_source chain_ok] in *.
  - exists (SDM sh rd rsh rs ro d), h. split; [reflexivity|]. split; [reflexivity|]. split; [reflexivity|].
    split; [apply extends_refl|]. exists (dm_index rd rs ro). split.
    + cbn [repr]. exists g. split; [exact Hd|]. split; [exact Hdm|reflexivity].
    + intros j Hj. split; [now apply (dm_box _ _ _ _ _ _ Hdm)|]. apply cmp_refl; [|apply goods_nil].
      rewrite goods_length, dm_index_length; auto; apply Hdm.
  - destruct Hok as (Hp & Hx & Hne & Hok).
    pose proof (getitem_dm_any h sh rd rsh rs ro d g ix Hd Hnd Hdm Hp Hx Hne) as G. cbv zeta in G.
    pose proof Hdm as [Dn Dg Dp Drs Dst Dro Dbox Dinj].
    assert (Haxes : axes_in (zlen sh) (concat rd)) by now apply perm_axes.
    assert (Hro0 : in_box ro (shape_of d)).
    { rewrite <- (dm_index_origin rd rs ro sh Dst Dro). apply Dbox. now apply zero_in_box. }
    set (nix := norm_items (index_items ix) sh) in *.
    assert (Hn : normal_index nix sh) by (apply norm_items_normal; auto; apply Hx).
    assert (Es : n_shape nix sh = slice_shape ix sh) by (apply norm_items_shape; auto; apply Hx).
    pose proof (fun j Hj => step_cmp ix r sh j Hp (proj1 Hx) Hj rd rs ro (shape_of d) Haxes Dst Dro
                  (Dbox _ (n_source_in_box nix sh j Hp Hn Hj))) as C.
    fold nix in C.
    destruct (slice_groups nix sh rd rs ro) as [[[ro' rs'] di] rd'].
    destruct G as (d' & h1 & E1 & E2 & E3 & E4 & E5 & E6 & Epd & E7 & E8 & E9).
    rewrite E1. cbn [bind].
    destruct (IH h1 _ rd' _ rs' ro' d' _ E5 E6 E9 Hok) as (s2 & h2 & F1 & F2 & F3 & F4 & place & F5 & F6).
    exists s2, h2. split; [exact F1|]. split; [exact F2|]. split; [congruence|].
    split; [eapply extends_trans; eassumption|].
    exists (fun j => items_source di (shape_of d) (place j)). split; [exact F5|]. intros j Hj.
    destruct (F6 j Hj) as [G1 G2]. rewrite E2 in G1.
    assert (Hs : in_box (chain_source r (slice_shape ix sh) j) (n_shape nix sh)).
    { rewrite Es. now apply chain_source_in_box. }
    destruct (C _ Hs Hro0 _ G1 G2) as [C1 C2]. split; [exact C1|].
    replace (source_index ix sh (chain_source r (slice_shape ix sh) j))
      with (n_source nix sh (chain_source r (slice_shape ix sh) j)); [exact C2|].
    unfold source_index. apply norm_items_source; [exact Hp|apply Hx|]. unfold slice_shape in Es. now rewrite <- Es.
Qed.

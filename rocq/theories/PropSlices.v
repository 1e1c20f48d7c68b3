(** C01-C08: slices and indices. *)
From Verif Require Import Py SliceTools Spec SliceFacts IndexFacts.
From Coq Require Import Sorted.

(** C01.  [selected s n] is list(range(n))[s] (Spec.v). *)
Theorem C01_reduced_preserves_selection :
  forall (s : pyslice) (n : Z), 0 <= n -> sp_step s <> 0 ->
  selected (to_slice (reduced s n)) n = selected s n.
Proof. exact reduced_selected. Qed.
Print Assumptions C01_reduced_preserves_selection.

Example C01_case :
  selected (Sl (Some (-2)) None (Some (-3))) 10 = [8; 5; 2]
  /\ reduced (Sl (Some (-2)) None (Some (-3))) 10 = RSl (-2) (-11) (-3).
Proof. split; reflexivity. Qed.

(** The specification's [selected] is the progression Python's range describes. *)
Theorem C01_selected_is_range :
  forall (s : pyslice) (n i : Z), sp_step s <> 0 -> 0 <= i ->
  (i < zlen (selected s n) <->
   if sp_step s <? 0 then sp_stop s n < sp_start s n + i * sp_step s
   else sp_start s n + i * sp_step s < sp_stop s n).
Proof.
  intros s n i Hk Hi. rewrite selected_length by assumption.
  now apply sp_count_spec.
Qed.
Print Assumptions C01_selected_is_range.

(** C02. *)
Theorem C02_reduced_normal_form :
  forall (s : pyslice) (n : Z), 0 <= n ->
  let r := reduced s n in
  r_step r <> 0
  /\ (r = RSl 0 0 1
      \/ (0 < r_step r <= n /\ 0 <= r_start r < r_stop r /\ r_stop r <= n)
      \/ (- n <= r_step r < 0 /\ - n - 1 <= r_stop r < r_start r /\ r_start r <= -1))
  /\ reduced (to_slice r) n = r
  /\ (sp_step s <> 0 -> (r = RSl 0 0 1 <-> selected s n = [])).
Proof.
  intros s n Hn. cbv zeta. pose proof (reduced_normal s n Hn) as H.
  split; [now apply normal_slice_step in H|].
  split; [exact H|]. split; [now apply reduced_idempotent|].
  intros Hk. now apply reduced_empty_iff.
Qed.
Print Assumptions C02_reduced_normal_form.

Example C02_case : reduced (Sl (Some 7) (Some 2) (Some 1)) 5 = RSl 0 0 1
  /\ selected (Sl (Some 7) (Some 2) (Some 1)) 5 = [].
Proof. split; reflexivity. Qed.

(** C03, for nitems(s, size) and for nitems(reduced(s, size), size, reduce=False). *)
Theorem C03_nitems_counts :
  forall (s : pyslice) (n : Z), 0 <= n -> sp_step s <> 0 ->
  nitems s n = Ok (zlen (selected s n))
  /\ nitems_r (reduced s n) = Ok (zlen (selected s n)).
Proof.
  intros s n Hn Hk. split; exact (nitems_correct s n Hn Hk).
Qed.
Print Assumptions C03_nitems_counts.

Example C03_case : nitems (Sl (Some 1) (Some 100) (Some 4)) 12 = Ok 3.
Proof. reflexivity. Qed.

(** C04. *)
Theorem C04_closed_form :
  forall (s : pyslice) (n : Z), 0 < n -> sp_step s <> 0 ->
  let r := reduced s n in
  exists c, nitems s n = Ok c
    /\ selected s n = map (fun i => r_start r mod n + i * r_step r) (zseq c)
    /\ forall i, 0 <= i < c -> 0 <= r_start r mod n + i * r_step r < n.
Proof.
  intros s n Hn Hk. cbv zeta. exists (zlen (selected s n)).
  split; [apply nitems_correct; (assumption || lia)|].
  pose proof (selected_closed_form s n Hn Hk) as E. cbv zeta in E.
  split; [exact E|].
  intros i Hi. apply (selected_in_range s n); [lia|assumption|].
  rewrite E. apply in_map_iff. exists i. split; [reflexivity|]. now apply In_zseq.
Qed.
Print Assumptions C04_closed_form.

Example C04_case : selected (Sl None None (Some (-4))) 10 = [9; 5; 1].
Proof. reflexivity. Qed.

(** C04, by membership: an item is selected when it lies between start and stop at
    a multiple of the step from start; for a negative step the same is said of the
    items counted from the end (the form in which test_slice.py checks reduced). *)
Lemma ordered_ext (R : Z -> Z -> Prop) (irr : forall x, ~ R x x) (asym : forall x y, R x y -> ~ R y x) :
  forall l1 l2, StronglySorted R l1 -> StronglySorted R l2 -> (forall x, In x l1 <-> In x l2) -> l1 = l2.
Proof.
  induction l1 as [|a l1 IH]; intros [|b l2] S1 S2 H.
  - reflexivity.
  - exfalso. apply (H b). now left.
  - exfalso. apply (H a). now left.
  - inversion S1 as [|? ? S1' F1]; inversion S2 as [|? ? S2' F2]; subst.
    rewrite Forall_forall in F1, F2.
    assert (E : a = b).
    { destruct (proj1 (H a) (or_introl eq_refl)) as [E|Ia]; [now symmetry|].
      destruct (proj2 (H b) (or_introl eq_refl)) as [E|Ib]; [assumption|].
      exfalso. exact (asym _ _ (F1 _ Ib) (F2 _ Ia)). }
    subst b. f_equal. apply IH; try assumption. intros x. split; intros Hx.
    + destruct (proj1 (H x) (or_intror Hx)) as [->|]; [|assumption]. exfalso. exact (irr _ (F1 _ Hx)).
    + destruct (proj2 (H x) (or_intror Hx)) as [->|]; [|assumption]. exfalso. exact (irr _ (F2 _ Hx)).
Qed.

Lemma map_ordered (R Q : Z -> Z -> Prop) (f : Z -> Z) (l : list Z) :
  (forall x y, R x y -> Q (f x) (f y)) -> StronglySorted R l -> StronglySorted Q (map f l).
Proof.
  intros H S. induction S as [|a l S IH F]; cbn [map]; constructor; [assumption|].
  rewrite Forall_forall in *. intros y Hy. apply in_map_iff in Hy. destruct Hy as (x & <- & Hx). auto.
Qed.

Lemma zseq_ordered n : StronglySorted Z.lt (zseq n).
Proof.
  unfold zseq. generalize 0%nat. induction (Z.to_nat n) as [|k IH]; intros a; cbn [seq map]; constructor; [apply IH|].
  apply Forall_forall. intros y Hy. apply in_map_iff in Hy. destruct Hy as (x & <- & Hx). apply in_seq in Hx. lia.
Qed.

Lemma filter_ordered (p : Z -> bool) (l : list Z) : StronglySorted Z.lt l -> StronglySorted Z.lt (filter p l).
Proof.
  intros S. induction S as [|a l S IH F]; cbn [filter]; [constructor|].
  destruct (p a); [|assumption]. constructor; [assumption|].
  rewrite Forall_forall in *. intros x Hx. apply filter_In in Hx. apply F, Hx.
Qed.

Ltac bounds := repeat match goal with |- context [if ?c then _ else _] => let H := fresh in destruct c eqn:H; first [apply Z.ltb_lt in H|apply Z.ltb_ge in H|apply Z.leb_le in H|apply Z.leb_gt in H] end; lia.

Theorem C04_membership :
  forall (s : pyslice) (n : Z), 0 <= n -> sp_step s <> 0 ->
  let r := reduced s n in
  selected s n =
    if 0 <? r_step r then
      filter (fun i => (r_start r <=? i) && (i <? r_stop r) && ((i - r_start r) mod r_step r =? 0)) (zseq n)
    else
      map (fun i => n - i - 1)
          (filter (fun i => (- r_start r - 1 <=? i) && (i <? - r_stop r - 1)
                            && ((i + r_start r + 1) mod r_step r =? 0)) (zseq n)).
Proof.
  intros s n Hn Hk. cbv zeta.
  pose proof (reduced_normal s n Hn) as N. rewrite <- (reduced_selected s n Hn Hk).
  destruct (reduced s n) as [a b k]. cbn [r_start r_stop r_step] in *.
  assert (Hk' : k <> 0) by (apply normal_slice_step in N; exact N).
  assert (M : forall x, In x (selected (to_slice (RSl a b k)) n) <->
     exists i, 0 <= i /\ x = sp_start (to_slice (RSl a b k)) n + i * k
       /\ (if k <? 0 then sp_stop (to_slice (RSl a b k)) n < x else x < sp_stop (to_slice (RSl a b k)) n)).
  { intros x. assert (Hs : sp_step (to_slice (RSl a b k)) = k) by reflexivity.
    set (t := to_slice (RSl a b k)) in *. clearbody t.
    assert (G : forall i, 0 <= i -> _) by (intros i Hi; exact (C01_selected_is_range t n i ltac:(lia) Hi)).
    rewrite Hs in G. unfold selected in *. rewrite zlen_map, zseq_length in G. rewrite in_map_iff, Hs in *. split.
    - intros (i & E & Hi). apply In_zseq in Hi. exists i. split; [lia|]. split; [now symmetry|].
      rewrite <- E. apply G; lia.
    - intros (i & Hi & E & Hb). exists i. split; [now symmetry|]. apply In_zseq.
      rewrite E in Hb. apply G in Hb; lia. }
  unfold normal_slice in N. cbn [r_start r_stop r_step] in N.
  destruct (0 <? k) eqn:Ek; [apply Z.ltb_lt in Ek|apply Z.ltb_ge in Ek].
  - replace (k <? 0) with false in M by (symmetry; apply Z.ltb_ge; lia).
    assert (E : sp_start (to_slice (RSl a b k)) n = a /\ sp_stop (to_slice (RSl a b k)) n = b).
    { unfold sp_start, sp_stop, sp_step, sp_adjust. cbn [to_slice sl_start sl_stop sl_step r_start r_stop r_step].
      destruct N as [N|[N|N]]; [injection N as -> -> ->| |]; bounds. }
    destruct E as [E1 E2]. rewrite E1, E2 in M.
    apply (ordered_ext Z.lt).
    + intros x; lia.
    + intros x y; lia.
    + unfold selected. apply map_ordered with (R := Z.lt); [|apply zseq_ordered].
      intros x y Hxy. cbn [to_slice sp_step]. unfold sp_step. cbn [to_slice sl_step r_step]. nia.
    + apply filter_ordered, zseq_ordered.
    + intros x. rewrite M, filter_In, In_zseq, !Bool.andb_true_iff, Z.leb_le, Z.ltb_lt, Z.eqb_eq. split.
      * intros (i & Hi & -> & Hs). replace (a + i * k - a) with (i * k) by lia. rewrite Z_mod_mult.
        assert (0 <= a /\ b <= n) by (destruct N as [N|[N|N]]; [injection N as -> -> ->| |]; lia). nia.
      * intros (Hx & (Ha & Hb) & Hm). exists ((x - a) / k).
        pose proof (Z.div_mod (x - a) k Hk') as D. rewrite Hm in D.
        split; [apply Z.div_pos; lia|]. split; lia.
  - replace (k <? 0) with true in M by (symmetry; apply Z.ltb_lt; lia).
    assert (E : sp_start (to_slice (RSl a b k)) n = a + n /\ sp_stop (to_slice (RSl a b k)) n = b + n
                /\ - n - 1 <= b < a /\ a <= -1).
    { unfold sp_start, sp_stop, sp_step, sp_adjust. cbn [to_slice sl_start sl_stop sl_step r_start r_stop r_step].
      destruct N as [N|[N|N]]; [injection N as -> -> ->; lia|lia|]; bounds. }
    destruct E as (E1 & E2 & Hb & Ha). rewrite E1, E2 in M.
    apply (ordered_ext Z.gt).
    + intros x; lia.
    + intros x y; lia.
    + unfold selected. apply map_ordered with (R := Z.lt); [|apply zseq_ordered].
      intros x y Hxy. unfold sp_step. cbn [to_slice sl_step r_step]. nia.
    + apply map_ordered with (R := Z.lt); [intros x y; lia|]. apply filter_ordered, zseq_ordered.
    + intros x. rewrite M, in_map_iff. split.
      * intros (i & Hi & Hx & Hs). exists (n - x - 1). split; [lia|].
        rewrite filter_In, In_zseq, !Bool.andb_true_iff, Z.leb_le, Z.ltb_lt, Z.eqb_eq.
        assert (i * k <= 0) by nia.
        replace (n - x - 1 + a + 1) with ((- i) * k) by lia. rewrite Z_mod_mult. lia.
      * intros (y & Hy & H). rewrite filter_In, In_zseq, !Bool.andb_true_iff, Z.leb_le, Z.ltb_lt, Z.eqb_eq in H.
        destruct H as (Hr & (Hl & Hu) & Hm).
        pose proof (Z.div_mod (y + a + 1) k Hk') as D. rewrite Hm in D.
        exists (- ((y + a + 1) / k)). split; [|split; lia].
        assert (k * ((y + a + 1) / k) >= 0) by lia. nia.
Qed.
Print Assumptions C04_membership.

Example C04_membership_case : selected (Sl (Some 8) None (Some (-3))) 10 = [8; 5; 2].
Proof. reflexivity. Qed.

(** C05 does not hold: a zero step is treated as the empty slice, by reduced,
    by nitems and by array indexing. *)
Theorem C05_zero_step_refuted :
  forall (a b : option Z) (n : Z), 0 <= n ->
  let s := Sl a b (Some 0) in
  reduced s n = RSl 0 0 1
  /\ nitems s n = Ok 0
  /\ normalize_index (XItem (ISlice s)) [n] = Ok [NSl (RSl 0 0 1)].
Proof.
  intros a b n Hn. cbv zeta.
  assert (E : reduced (Sl a b (Some 0)) n = RSl 0 0 1) by (now apply reduced_step0).
  unfold nitems. cbn [normalize_index map]. rewrite E. auto.
Qed.
Print Assumptions C05_zero_step_refuted.

(** C06. *)
Theorem C06_normalize_index :
  forall (ix : pyindex) (shape : list Z), positive shape -> ok_index ix shape ->
  exists nix, normalize_index ix shape = Ok nix
    /\ length nix = length shape
    /\ (forall k, (k < length shape)%nat ->
          item_normalized (nth k (index_items ix) INone) (nth k shape 0) (nth k nix NNone))
    /\ normalize_index (XTuple (map nind_to_ind nix)) shape = Ok nix.
Proof. exact normalize_index_full. Qed.
Print Assumptions C06_normalize_index.

Theorem C06_extra_items_rejected :
  forall (items : list ind) (shape : list Z) (k : nat) (i : ind), positive shape ->
  (length shape <= k)%nat -> nth_error items k = Some i ->
  match i with IInt _ => True | ISlice _ => True | _ => False end ->
  Forall (fun x => x <> IOther) items ->
  normalize_index (XTuple items) shape = Raise IndexError.
Proof. intros items shape k i. exact (normalize_tuple_too_long items shape k i). Qed.
Print Assumptions C06_extra_items_rejected.

(** Which indices are rejected, and how: the first item that fits nowhere
    decides.  An object that is no int, slice or None is a ValueError, an int or
    a slice past the last axis an IndexError, an int for an axis of length 0 a
    ZeroDivisionError. *)
Definition item_fault (i : ind) (axis : option Z) : option exn :=
  match i, axis with
  | IOther, _ => Some ValueError
  | INone, _ => None
  | IInt _, Some n => if n =? 0 then Some ZeroDivisionError else None
  | ISlice _, Some _ => None
  | _, None => Some IndexError
  end.

Theorem C06_rejected_exactly : forall items shape e,
  normalize_index (XTuple items) shape = Raise e <->
  exists k i, nth_error items k = Some i /\ item_fault i (nth_error shape k) = Some e
    /\ forall k' i', (k' < k)%nat -> nth_error items k' = Some i' -> item_fault i' (nth_error shape k') = None.
Proof.
  cbn [normalize_index]. induction items as [|i items IH]; intros shape e.
  - cbn. split; [discriminate|]. intros (k & i & H & _). destruct k; discriminate.
  - destruct (item_fault i (hd_error shape)) as [e'|] eqn:F.
    + assert (E : normalize_tuple (i :: items) shape = Raise e').
      { destruct i as [z|sl| |], shape as [|n sh]; cbn in F |- *; try discriminate; try congruence.
        unfold pymod. destruct (n =? 0); [cbn; congruence|discriminate]. }
      rewrite E. split.
      * intros H. exists 0%nat, i. split; [reflexivity|]. split; [destruct shape; cbn in *; congruence|]. intros; lia.
      * intros (k & i2 & H1 & H2 & H3). destruct k as [|k].
        { cbn in H1. destruct shape; cbn in *; congruence. }
        specialize (H3 0%nat i ltac:(lia) eq_refl). destruct shape; cbn in *; congruence.
    + assert (E : normalize_tuple (i :: items) shape = Raise e <-> normalize_tuple items (tl shape) = Raise e).
      { destruct i as [z|sl| |], shape as [|n sh]; cbn in F |- *; try discriminate; try reflexivity.
        - unfold pymod. destruct (n =? 0); [discriminate|]. cbn. destruct (normalize_tuple items sh); cbn; split; congruence.
        - destruct (normalize_tuple items sh); cbn; split; congruence.
        - destruct (normalize_tuple items sh); cbn; split; congruence. }
      rewrite E, IH. assert (T : forall k, nth_error (tl shape) k = nth_error shape (S k)) by (intros k; destruct shape; [destruct k|]; reflexivity).
      split.
      * intros (k & i2 & H1 & H2 & H3). exists (S k), i2. rewrite T in H2. split; [exact H1|]. split; [exact H2|].
        intros [|k'] i' Hk Hi; [injection Hi as <-; destruct shape; exact F|]. rewrite <- T. apply H3; [lia|exact Hi].
      * intros (k & i2 & H1 & H2 & H3). destruct k as [|k].
        { injection H1 as <-. destruct shape; cbn in *; congruence. }
        exists k, i2. split; [exact H1|]. rewrite T. split; [exact H2|]. intros k' i' Hk Hi. rewrite T. apply H3; [lia|exact Hi].
Qed.
Print Assumptions C06_rejected_exactly.

(** An index that is not a tuple is treated like the tuple of it, except that a
    foreign object is a TypeError. *)
Theorem C06_single_items : forall i shape,
  (i <> IOther -> normalize_index (XItem i) shape = normalize_index (XTuple [i]) shape)
  /\ (i = IOther -> normalize_index (XItem i) shape = Raise TypeError).
Proof.
  intros i shape. split; [|now intros ->]. intros H. destruct i as [z|sl| |], shape as [|n sh]; cbn; try reflexivity; congruence.
Qed.
Print Assumptions C06_single_items.
Example C06_case_rejected :
  normalize_index (XTuple [INone; IInt 1; IOther]) [3; 0] = Raise ZeroDivisionError
  /\ normalize_index (XTuple [INone; ISlice (Sl None None None); IOther]) [3; 0] = Raise ValueError
  /\ normalize_index (XTuple [INone; IInt 0; IOther]) [3] = Raise IndexError.
Proof. repeat split. Qed.

Example C06_case :
  normalize_index (XTuple [IInt (-1); ISlice (Sl (Some 1) None None)]) [3; 4; 5]
  = Ok [NInt 2; NSl (RSl 1 4 1); NNone].
Proof. reflexivity. Qed.
Example C06_case_extra :
  normalize_index (XTuple [INone; IInt 0]) [3] = Raise IndexError.
Proof. reflexivity. Qed.

(** C07. *)
Theorem C07_index_strided_exact :
  forall (ix : pyindex) (shape strides : list Z) (off0 : Z),
  positive shape -> ok_index ix shape -> length strides = length shape ->
  exists nix st off,
    normalize_index ix shape = Ok nix
    /\ index_strided nix shape strides off0 = Ok (slice_shape ix shape, st, off)
    /\ length st = length (slice_shape ix shape)
    /\ forall j, in_box j (slice_shape ix shape) ->
         in_box (source_index ix shape j) shape
         /\ off + zdot j st = off0 + zdot (source_index ix shape j) strides.
Proof. exact index_strided_full. Qed.
Print Assumptions C07_index_strided_exact.

Example C07_case :
  let ix := XTuple [IInt 1; ISlice (Sl None None (Some (-2)))] in
  slice_shape ix [2; 5; 3] = [3; 3]
  /\ source_index ix [2; 5; 3] [1; 2] = [1; 2; 2]
  /\ index_strided [NInt 1; NSl (RSl (-1) (-6) (-2)); NNone] [2; 5; 3] [15; 3; 1] 0
     = Ok ([3; 3], [-6; 1], 27).
Proof. repeat split; reflexivity. Qed.

(** C08. *)
Theorem C08_apply_slices_agrees :
  forall (items : list ind) (shape strides : list Z),
  positive shape -> Forall ok_item items ->
  length items = length shape -> length strides = length shape ->
  exists nix,
    normalize_index (XTuple items) shape = Ok nix
    /\ apply_slices items shape strides 0 = index_strided nix shape strides 0
    /\ shape_strided nix shape = Ok (slice_shape (XTuple items) shape)
    /\ exists st off, apply_slices items shape strides 0
                      = Ok (slice_shape (XTuple items) shape, st, off).
Proof.
  intros items shape strides Hp Hok Hl Hs. exists (norm_items items shape).
  split; [apply normalize_tuple_ok; (assumption || lia)|].
  pose proof (apply_slices_ok items shape strides 0 Hp Hok Hl Hs) as E.
  pose proof (norm_items_normal items shape Hp) as Hn.
  pose proof (norm_items_shape items shape Hp Hok) as Hsh.
  split; [exact E|].
  split; [rewrite shape_strided_ok by assumption; now rewrite Hsh|].
  rewrite E, index_strided_ok, Hsh by assumption. unfold slice_shape. cbn [index_items]. eauto.
Qed.
Print Assumptions C08_apply_slices_agrees.

Example C08_case :
  apply_slices [ISlice (Sl (Some 1) None None); IInt (-1)] [3; 4] [4; 1] 0 = Ok ([2], [4], 7).
Proof. reflexivity. Qed.

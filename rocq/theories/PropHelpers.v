(** C103: the index helpers answer, or fail with a fixed exception, exactly as
    their arguments fit together. *)
From Verif Require Import Py SliceTools Storage Spec.
From Coq Require Import List ZArith Lia Bool.
Import ListNotations.
Open Scope Z_scope.

(** Full is_element_index, storage.py:97-112, for any index (Storage.v has the
    case of normalized tuples, the only one the library itself uses).  [len] of
    an object that is no int, slice, None or sequence is a TypeError. *)
Definition is_element_index_any (index : pyindex) (shape : list Z) : res bool :=
  match index with
  | XItem (ISlice _) | XItem INone => Ok false
  | XItem (IInt _) => Ok (zlen shape =? 1)
  | XItem IOther => Raise TypeError
  | XTuple l =>
      Ok ((zlen l =? zlen shape)
          && forallb (fun i => match i with IInt _ => true | _ => false end) l)
  end.

(** * Positions *)

(** get_position uses the first len(shape) items of index and strides; it fails
    exactly when one of them has fewer. *)
Theorem C103_position : forall index shape strides,
  (length shape <= length index /\ length shape <= length strides)%nat /\
    get_position index shape strides
    = Ok (zdot (firstn (length shape) index) (firstn (length shape) strides))
  \/ (length index < length shape \/ length strides < length shape)%nat /\
    get_position index shape strides = Raise IndexError.
Proof.
  intros index shape. revert index. induction shape as [|n sh IH]; intros index strides.
  - left. cbn [length]. split; [lia|]. destruct index; reflexivity.
  - destruct index as [|i ix]; [right; cbn; split; [lia|reflexivity]|].
    destruct strides as [|s st]; [right; cbn; split; [lia|reflexivity]|].
    cbn [get_position length firstn zdot]. destruct (IH ix st) as [[H E]|[H E]]; rewrite E; cbn [bind].
    + left. split; [lia|reflexivity].
    + right. split; [lia|reflexivity].
Qed.
Print Assumptions C103_position.

(** * Dimension reduction *)

(** The item of [index] an axis number stands for: negative numbers count from
    the end. *)
Definition at_axis (index : list Z) (a : Z) : Z :=
  nth (Z.to_nat (if a <? 0 then a + zlen index else a)) index 0.

(** A group (shape, strides, axes) fits an index: strides and axes have an item
    for every size, and the axes that are used exist. *)
Definition group_fits (index shape strides axes : list Z) : Prop :=
  (length shape <= length strides /\ length shape <= length axes)%nat /\
  forall k, (k < length shape)%nat -> - zlen index <= nth k axes 0 < zlen index.

Lemma pyget_at index a : - zlen index <= a < zlen index -> pyget index a = Ok (at_axis index a).
Proof.
  intros H. unfold pyget, at_axis. set (j := if a <? 0 then a + zlen index else a).
  assert (0 <= j < zlen index) by (unfold j; destruct (Z.ltb_spec a 0); lia).
  destruct (Z.ltb_spec j 0); [lia|].
  destruct (nth_error index (Z.to_nat j)) eqn:E.
  - f_equal. symmetry. now apply nth_error_nth.
  - apply nth_error_None in E. unfold zlen in *. lia.
Qed.

Lemma pyget_out {A} (l : list A) a : ~ (- zlen l <= a < zlen l) -> pyget l a = Raise IndexError.
Proof.
  intros H. unfold pyget. destruct (Z.ltb_spec a 0).
  - destruct (Z.ltb_spec (a + zlen l) 0); [reflexivity|lia].
  - destruct (Z.ltb_spec a 0); [reflexivity|].
    destruct (nth_error l (Z.to_nat a)) eqn:E; [|reflexivity].
    assert (Z.to_nat a < length l)%nat by (apply nth_error_Some; congruence). unfold zlen in *. lia.
Qed.

Lemma rposition_cases index : forall shape strides axes,
  group_fits index shape strides axes /\
    get_rposition index strides shape axes
    = Ok (zdot (map (at_axis index) (firstn (length shape) axes)) (firstn (length shape) strides))
  \/ ~ group_fits index shape strides axes /\
    get_rposition index strides shape axes = Raise IndexError.
Proof.
  induction shape as [|n sh IH]; intros strides axes.
  - left. split; [split; [cbn; lia|]; cbn; intros; lia|]. destruct strides; reflexivity.
  - destruct axes as [|a am].
    { right. split; [intros [[_ H] _]; cbn in H; lia|destruct strides; reflexivity]. }
    destruct strides as [|s st].
    { right. split; [intros [[H _] _]; cbn in H; lia|reflexivity]. }
    cbn [get_rposition length firstn map zdot].
    assert (D : {- zlen index <= a < zlen index} + {~ (- zlen index <= a < zlen index)}).
    { destruct (Z_le_dec (- zlen index) a), (Z_lt_dec a (zlen index)); (left; lia) || (right; lia). }
    destruct D as [D|D].
    + rewrite (pyget_at _ _ D). cbn [bind].
      destruct (IH st am) as [[[L F] E]|[F E]]; rewrite E; cbn [bind].
      * left. split; [|reflexivity]. split; [cbn; lia|]. intros [|k] Hk; [exact D|].
        cbn [nth]. apply F. cbn in Hk. lia.
      * right. split; [|reflexivity]. intros [L F2]. apply F. split; [cbn in L; lia|].
        intros k Hk. apply (F2 (S k)). cbn. lia.
    + right. split.
      * intros [_ F]. apply D. apply (F 0%nat). cbn. lia.
      * rewrite (pyget_out _ _ D). reflexivity.
Qed.

(** reduce_index answers exactly when there is an origin, strides and axes for
    every group and each group fits the index; the answer is the origin plus the
    linear position, group by group.  It fails with IndexError otherwise. *)
Theorem C103_reduce : forall rshapes rdims rstrides roffset index,
  let fits :=
    (length rshapes <= length rdims /\ length rshapes <= length rstrides
     /\ length rshapes <= length roffset)%nat
    /\ forall k, (k < length rshapes)%nat ->
         group_fits index (nth k rshapes []) (nth k rstrides []) (nth k rdims []) in
  (fits /\ exists r, reduce_index rshapes rdims rstrides roffset index = Ok r
     /\ length r = length rshapes
     /\ forall k, (k < length rshapes)%nat ->
          let n := length (nth k rshapes []) in
          nth k r 0 = nth k roffset 0
            + zdot (map (at_axis index) (firstn n (nth k rdims []))) (firstn n (nth k rstrides [])))
  \/ (~ fits /\ reduce_index rshapes rdims rstrides roffset index = Raise IndexError).
Proof.
  induction rshapes as [|sh shs IH]; intros rdims rstrides roffset index fits; unfold fits.
  - left. split; [split; [cbn; lia|cbn; intros; lia]|]. exists []. split; [destruct rdims; reflexivity|].
    split; [reflexivity|]. cbn. intros; lia.
  - destruct roffset as [|o os].
    { right. split; [intros [(_ & _ & H) _]; cbn in H; lia|destruct rdims; reflexivity]. }
    destruct rstrides as [|st sts].
    { right. split; [intros [(_ & H & _) _]; cbn in H; lia|destruct rdims; reflexivity]. }
    destruct rdims as [|d ds].
    { right. split; [intros [(H & _ & _) _]; cbn in H; lia|reflexivity]. }
    cbn [reduce_index].
    destruct (rposition_cases index sh st d) as [[F E]|[F E]]; rewrite E; cbn [bind].
    + specialize (IH ds sts os index). cbn zeta in IH.
      destruct IH as [[[L G] (r & Er & Lr & Hr)]|[N Er]]; rewrite Er; cbn [bind].
      * left. split.
        { split; [cbn; lia|]. intros [|k] Hk; [exact F|]. apply G. cbn in Hk. lia. }
        eexists. split; [reflexivity|]. split; [cbn; lia|].
        intros [|k] Hk; [reflexivity|]. cbn [nth]. apply Hr. cbn in Hk. lia.
      * right. split; [|reflexivity]. intros [L G]. apply N. split; [cbn in L; lia|].
        intros k Hk. apply (G (S k)). cbn. lia.
    + right. split; [|reflexivity]. intros [_ G]. apply F. apply (G 0%nat). cbn. lia.
Qed.
Print Assumptions C103_reduce.

(** * Lookups *)

Lemma pyget_kind {A} (l : list A) i e : pyget l i = Raise e -> e = IndexError.
Proof.
  unfold pyget. set (j := if i <? 0 then i + zlen l else i). destruct (j <? 0); [now intros [= <-]|].
  destruct (nth_error l (Z.to_nat j)); [discriminate|]. now intros [= <-].
Qed.

Lemma buf_int_kind h b i : buf_int h b i <> Raise ValueError.
Proof.
  unfold buf_int, buf_get, cell. destruct (nth_error h (baddr b)); cbn [bind]; [|discriminate].
  destruct (pyget l (boff b + i)) as [v|e] eqn:E; cbn [bind].
  - destruct v; discriminate.
  - apply pyget_kind in E. subst e. discriminate.
Qed.

Lemma bsearch_kind d : (forall p, d p <> Raise ValueError) ->
  forall fuel l r, bsearch fuel l r d <> Raise ValueError.
Proof.
  intros Hd. induction fuel as [|f IH]; intros l r; cbn [bsearch]; [discriminate|].
  destruct (r <? l); [discriminate|]. destruct (d ((l + r) / 2)) as [c|e] eqn:E; cbn [bind].
  - destruct (c =? 0); [discriminate|]. destruct (c <? 0); apply IH.
  - intros H. apply (Hd ((l + r) / 2)). rewrite E. now injection H as ->.
Qed.

(** A CSR lookup unpacks its index as row, col: ValueError exactly for an index
    of another length. *)
Theorem C103_csr_lookup : forall h index crow col,
  get_csr_position h index crow col = Raise ValueError <-> length index <> 2%nat.
Proof.
  intros h index crow col. unfold get_csr_position.
  destruct index as [|r [|c [|x l]]]; cbn [length]; split; intros H; try reflexivity; try lia; exfalso.
  destruct (buf_int h crow r) as [a|e] eqn:Ea; cbn [bind] in H.
  - destruct (buf_int h crow (r + 1)) as [b|e] eqn:Eb; cbn [bind] in H.
    + refine (bsearch_kind _ _ _ _ _ H). intros p. cbn beta.
      destruct (buf_int h col p) as [v|e] eqn:E; cbn [bind]; [discriminate|].
      intros K. apply (buf_int_kind h col p). rewrite E. now injection K as ->.
    + apply (buf_int_kind h crow (r + 1)). rewrite Eb. now injection H as ->.
  - apply (buf_int_kind h crow r). rewrite Ea. now injection H as ->.
Qed.
Print Assumptions C103_csr_lookup.

(** * Slices *)

(** What apply_slices does with an item for an axis of length [size]: an object
    that is no int, slice or None is a ValueError; an int or a slice for an axis
    of length 0 is a ZeroDivisionError (taken modulo the length). *)
Definition slice_fault (i : ind) (size : Z) : option exn :=
  match i with
  | IOther => Some ValueError
  | INone => None
  | IInt _ | ISlice _ => if size =? 0 then Some ZeroDivisionError else None
  end.

Lemma reduced_step_nonzero s size : r_step (reduced s size) <> 0.
Proof.
  unfold reduced. cbv zeta. match goal with |- context [match ?t with pair _ _ => _ end] => destruct t as [[start stop] step] end.
  destruct (Z.leb_spec ((stop - start) * step) 0); cbn [r_step]; nia.
Qed.

Lemma nitems_reduced s size : exists c, nitems_r (reduced s size) = Ok c.
Proof.
  pose proof (reduced_step_nonzero s size) as H. destruct (reduced s size) as [a b k]. cbn [r_step] in H.
  unfold nitems_r. cbn [r_start r_stop r_step]. destruct (b =? a); [eauto|]. unfold pydiv.
  destruct (Z.eqb_spec (Z.abs k) 0); [lia|]. cbn [bind]. destruct (Z.eqb_spec k 0); [lia|]. cbn [bind]. eauto.
Qed.

(** apply_slices walks over the axes that have a size, a stride and an item; the
    first item at fault decides the exception. *)
Theorem C103_apply_slices : forall slices shape strides offset e,
  apply_slices slices shape strides offset = Raise e <->
  exists k i size, (k < length strides)%nat
    /\ nth_error slices k = Some i /\ nth_error shape k = Some size /\ slice_fault i size = Some e
    /\ forall k' i' size', (k' < k)%nat -> nth_error slices k' = Some i' ->
         nth_error shape k' = Some size' -> slice_fault i' size' = None.
Proof.
  induction slices as [|i slices IH]; intros shape strides offset e.
  - assert (E : apply_slices [] shape strides offset = Ok ([], [], offset)) by (destruct shape, strides; reflexivity).
    rewrite E. split; [discriminate|]. intros (k & i & size & _ & H & _). destruct k; discriminate.
  - destruct shape as [|size sh].
    { split; [discriminate|]. intros (k & j & n & _ & _ & H & _). destruct k; discriminate. }
    destruct strides as [|st sts].
    { split; [discriminate|]. intros (k & j & n & H & _). cbn in H. lia. }
    destruct (slice_fault i size) as [e'|] eqn:F.
    + assert (E : apply_slices (i :: slices) (size :: sh) (st :: sts) offset = Raise e').
      { destruct i as [z|sl| |]; cbn [slice_fault apply_slices] in *; try discriminate; try congruence;
          unfold pymod; destruct (size =? 0); try discriminate F; cbn [bind]; injection F as <-; reflexivity. }
      rewrite E. split.
      * intros H. exists 0%nat, i, size. split; [cbn; lia|]. split; [reflexivity|]. split; [reflexivity|].
        split; [congruence|]. intros; lia.
      * intros (k & j & n & _ & H1 & H2 & H3 & H4). destruct k as [|k].
        { cbn in H1, H2. congruence. }
        specialize (H4 0%nat i size ltac:(lia) eq_refl eq_refl). congruence.
    + assert (E : exists off, apply_slices (i :: slices) (size :: sh) (st :: sts) offset = Raise e
                    <-> apply_slices slices sh sts off = Raise e).
      { destruct i as [z|sl| |]; cbn [slice_fault apply_slices] in *; try discriminate.
        - unfold pymod. destruct (size =? 0); [discriminate|]. cbn [bind]. eexists. reflexivity.
        - unfold pymod. destruct (size =? 0); [discriminate|]. cbn [bind].
          destruct (nitems_reduced sl size) as (c & ->). cbn [bind].
          exists (offset + st * (r_start (reduced sl size) mod size)).
          destruct (apply_slices slices sh sts _) as [[[x y] w]|]; cbn [bind]; [split; discriminate|reflexivity].
        - exists offset.
          destruct (apply_slices slices sh sts _) as [[[x y] w]|]; cbn [bind]; [split; discriminate|reflexivity]. }
      destruct E as (off & E). rewrite E, IH. split.
      * intros (k & j & n & H0 & H1 & H2 & H3 & H4). exists (S k), j, n. split; [cbn; lia|].
        split; [exact H1|]. split; [exact H2|]. split; [exact H3|].
        intros [|k'] i' n' Hk Hi Hn; [cbn in Hi, Hn; congruence|]. apply (H4 k'); [lia|exact Hi|exact Hn].
      * intros (k & j & n & H0 & H1 & H2 & H3 & H4). destruct k as [|k].
        { cbn in H1, H2. congruence. }
        exists k, j, n. split; [cbn in H0; lia|]. split; [exact H1|]. split; [exact H2|]. split; [exact H3|].
        intros k' i' n' Hk Hi Hn. apply (H4 (S k')); [lia|exact Hi|exact Hn].
Qed.
Print Assumptions C103_apply_slices.

(** * Element indices *)

(** is_element_index: True exactly for an int on a one-dimensional array and for
    a tuple of as many ints as there are axes; TypeError exactly for an object
    that is no int, slice, None or sequence.  On normalized indices it is the
    test that __getitem__ uses, and an index it accepts is read as an element. *)
Theorem C103_element_index : forall ix shape,
  (is_element_index_any ix shape = Ok true <->
     (exists z, ix = XItem (IInt z) /\ length shape = 1%nat)
     \/ (exists l, ix = XTuple (map IInt l) /\ length l = length shape))
  /\ (forall e, is_element_index_any ix shape = Raise e <-> ix = XItem IOther /\ e = TypeError)
  /\ (forall nix, is_element_index_any (XTuple (map nind_to_ind nix)) shape = Ok (is_element_index nix shape))
  /\ (forall nix, normalize_index ix shape = Ok nix -> is_element_index_any ix shape = Ok true ->
        is_element_index nix shape = true).
Proof.
  intros ix shape.
  assert (T : is_element_index_any ix shape = Ok true <->
     (exists z, ix = XItem (IInt z) /\ length shape = 1%nat)
     \/ (exists l, ix = XTuple (map IInt l) /\ length l = length shape)).
  { destruct ix as [i|l]; [destruct i|]; cbn [is_element_index_any].
    - split.
      + intros H. left. exists z. split; [reflexivity|]. injection H as H. apply Z.eqb_eq in H. unfold zlen in H. lia.
      + intros [(y & _ & H)|(l & H & _)]; [|discriminate]. f_equal. apply Z.eqb_eq. unfold zlen. lia.
    - split; [discriminate|]. intros [(y & H & _)|(l & H & _)]; discriminate.
    - split; [discriminate|]. intros [(y & H & _)|(l & H & _)]; discriminate.
    - split; [discriminate|]. intros [(y & H & _)|(l & H & _)]; discriminate.
    - split.
      + intros H. right. injection H as H. apply andb_prop in H. destruct H as [H1 H2].
        apply Z.eqb_eq in H1. unfold zlen in H1.
        assert (M : exists m, l = map IInt m).
        { clear H1. induction l as [|i l IH]; [now exists []|]. cbn [forallb] in H2. apply andb_prop in H2.
          destruct H2 as [H2 H3]. destruct i; try discriminate. destruct (IH H3) as (m & ->). now exists (z :: m). }
        destruct M as (m & ->). exists m. split; [reflexivity|]. rewrite map_length in H1. lia.
      + intros [(y & H & _)|(m & H & L)]; [discriminate|]. injection H as ->. f_equal. apply andb_true_intro. split.
        * apply Z.eqb_eq. unfold zlen. rewrite map_length. lia.
        * apply forallb_forall. intros x Hx. apply in_map_iff in Hx. now destruct Hx as (z & <- & _). }
  split; [exact T|]. split; [|split].
  - intros e. destruct ix as [[]|]; cbn [is_element_index_any]; split; intros H; try discriminate;
      try (destruct H; discriminate); [injection H as <-; auto|destruct H as [_ ->]; reflexivity].
  - intros nix. cbn [is_element_index_any]. unfold is_element_index, zlen. rewrite map_length. f_equal. f_equal.
    induction nix as [|n nix IH]; [reflexivity|]. cbn [map forallb]. rewrite IH. now destruct n.
  - intros nix N H. apply T in H. destruct H as [(z & -> & L)|(l & -> & L)].
    + destruct shape as [|n [|]]; try (cbn in L; lia). cbn [normalize_index map] in N.
      destruct (pymod z n); [|discriminate]. injection N as <-. reflexivity.
    + cbn [normalize_index] in N. clear T. revert shape nix L N.
      induction l as [|z l IH]; intros [|n sh] nix L N; cbn in L; try lia.
      * injection N as <-. reflexivity.
      * cbn [map normalize_tuple] in N. destruct (pymod z n); [|discriminate]. cbn [bind] in N.
        destruct (normalize_tuple (map IInt l) sh) as [rest|] eqn:E; [|discriminate]. injection N as <-.
        specialize (IH sh rest ltac:(lia) E). unfold is_element_index in *. cbn [forallb is_int_item].
        apply andb_prop in IH. destruct IH as [I1 I2]. rewrite I2. apply Z.eqb_eq in I1.
        rewrite andb_true_r. apply Z.eqb_eq. unfold zlen in *. cbn [length]. lia.
Qed.
Print Assumptions C103_element_index.

Example C103_cases :
  get_position [1; 2; 9] [3; 4] [4; 1] = Ok 6
  /\ get_position [1] [3; 4] [4; 1] = Raise IndexError
  /\ reduce_index [[2; 4]; [3]] [[0; -1]; [1]] [[4; 1]; [1]] [10; 0] [1; 2; 3] = Ok [17; 2]
  /\ reduce_index [[2; 4]; [3]] [[0; 3]; [1]] [[4; 1]; [1]] [10; 0] [1; 2; 3] = Raise IndexError
  /\ get_csr_position [] [1] (Buf 0 0 0 VNone) (Buf 0 0 0 VNone) = Raise ValueError
  /\ apply_slices [INone; IInt 1; IOther] [3; 0; 2] [0; 0; 0] 0 = Raise ZeroDivisionError
  /\ apply_slices [INone; IInt 1; IOther] [3; 4; 2] [8; 2; 1] 0 = Raise ValueError
  /\ apply_slices [INone; IInt 1; IOther] [3; 4; 2] [8; 2] 0 = Ok ([3], [8], 2)
  /\ is_element_index_any (XTuple [IInt 1; INone]) [3] = Ok false
  /\ (exists nix, normalize_index (XTuple [IInt 1; INone]) [3] = Ok nix /\ is_element_index nix [3] = true).
Proof. repeat split. eexists. split; reflexivity. Qed.

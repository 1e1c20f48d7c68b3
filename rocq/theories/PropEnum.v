(** C51-C54: enumeration of slices, conversion between array and slice indices,
    iteration, is_full. *)
From Coq Require Import Sorting.Sorted Permutation ZifyBool.
From Verif Require Import Py SliceTools Basics Storage Enumerate Spec SliceFacts IndexFacts
  CompressFacts ReduceFacts SolverFacts SolveFacts Repr ReprFacts ViewFacts BuildFacts SparseFacts
  ConvFacts FromFacts DMFacts ReadFacts MapFacts ChainFacts WriteFacts EffectFacts PropRead PropWrite PropIndex PropSolver.

(** ** C51 *)

Lemma sorted_ok h s ix (pos : list Z -> option dpos) :
  strides_of s = make_strides (shape_of s) ->
  positive (shape_of s) -> ok_index ix (shape_of s) -> slice_shape ix (shape_of s) <> [] ->
  (forall i, in_box i (shape_of s) -> data_position h s i = Ok (pos i)) ->
  exists st off,
    (nix <- normalize_index ix (shape_of s) ;; index_strided nix (shape_of s) (strides_of s) 0)
      = Ok (slice_shape ix (shape_of s), st, off)
    /\ sorted_slice_iad h s (slice_shape ix (shape_of s)) st off
       = Ok (map (fun j => (j, pos (source_index ix (shape_of s) j))) (cart (slice_shape ix (shape_of s)))).
Proof.
  intros Est Hp Hok Hne Hpos. set (sh := shape_of s) in *.
  destruct (index_strided_full ix sh (make_strides sh) 0 Hp Hok (make_strides_length sh))
    as (nix & st & off & E1 & E2 & E3 & E4).
  exists st, off. rewrite E1. cbn [bind]. rewrite Est. split; [exact E2|].
  unfold sorted_slice_iad. fold sh. rewrite Est.
  assert (Hsh : sh <> []).
  { intros E. rewrite E in Hne. apply Hne. unfold slice_shape. now destruct (index_items ix) as [|[]]. }
  destruct (solver_data _ _ _ (sliced_contiguous sh Hp) Hsh) as (sd & Es & Hsd). rewrite Es. cbn [bind].
  apply mapM_ok. intros j Hj. apply In_cart in Hj. destruct (E4 j Hj) as [B Eq].
  rewrite get_position_ok; [|now apply in_box_len|exact E3]. cbn [bind].
  destruct (Hsd (zdot j st + off)) as (r & Er & Hr). rewrite Er. cbn [bind].
  assert (r = Some (source_index ix sh j)) as -> by (apply Hr; split; [exact B|lia]).
  rewrite Hpos by exact B. reflexivity.
Qed.

Definition has_position (e : list Z * option dpos) : bool :=
  match snd e with Some _ => true | None => false end.

(** The pairs found in the two enumerations of the slice [ix] of an array:
    sorted, every slice index in row-major order, with no position for elements
    that are not stored; unsorted, the same pairs without those.  The position
    of an element is where its value is read from. *)
Definition enumerates (h : heap) (s : storage) (ix : pyindex) (l m : list (list Z * option dpos)) : Prop :=
  row_major_list (slice_shape ix (shape_of s)) (map fst l)
  /\ (forall j o, In (j, o) l ->
        (o = None <-> ~ stored h s (source_index ix (shape_of s) j))
        /\ forall p, o = Some p -> read_data h s p = get_elem h s (source_index ix (shape_of s) j))
  /\ Permutation m (filter has_position l).

Lemma enumerates_intro h s ix pos m :
  positive (shape_of s) -> ok_index ix (shape_of s) ->
  (forall i, in_box i (shape_of s) -> (pos i = None <-> ~ stored h s i)
      /\ forall p, pos i = Some p -> read_data h s p = get_elem h s i) ->
  NoDup m ->
  (forall j o, In (j, o) m <-> in_box j (slice_shape ix (shape_of s))
      /\ pos (source_index ix (shape_of s) j) = o /\ o <> None) ->
  enumerates h s ix (map (fun j => (j, pos (source_index ix (shape_of s) j))) (cart (slice_shape ix (shape_of s)))) m.
Proof.
  intros Hp Hok Hpos Hnd Hm. unfold enumerates. rewrite map_map. cbn [fst]. rewrite map_id.
  split; [split; [apply cart_sorted|intros i; apply In_cart]|]. split.
  - intros j o Hin. apply in_map_iff in Hin. destruct Hin as (k & Ek & Hk). injection Ek as <- <-.
    apply In_cart in Hk. apply Hpos. now apply source_index_in_box.
  - apply NoDup_Permutation; [exact Hnd| |].
    + apply NoDup_filter. apply NoDup_map_inv with (f := fst). rewrite map_map. cbn [fst]. rewrite map_id.
      apply sorted_NoDup, cart_sorted.
    + intros [j o]. rewrite Hm, filter_In, in_map_iff. unfold has_position. cbn [snd]. split.
      * intros (Hj & Ho & Hn). split; [|destruct o; congruence]. exists j. rewrite Ho. split; [reflexivity|now apply In_cart].
      * intros [(k & Ek & Hk) Ho]. injection Ek as -> <-. apply In_cart in Hk. split; [exact Hk|]. split; [reflexivity|].
        destruct (pos _); congruence.
Qed.

Lemma filter_all {A} (p : A -> bool) l : (forall x, In x l -> p x = true) -> filter p l = l.
Proof.
  induction l as [|x l IH]; intros H; [reflexivity|]. cbn [filter]. rewrite (H x (or_introl eq_refl)).
  f_equal. apply IH. intros y Hy. apply H. now right.
Qed.

Theorem C51_enumerations : forall h s ix,
  valid h s -> (forall b, s <> SBuffer b) -> positive (shape_of s) ->
  ok_index ix (shape_of s) -> slice_shape ix (shape_of s) <> [] ->
  exists st off l m,
    (nix <- normalize_index ix (shape_of s) ;; index_strided nix (shape_of s) (strides_of s) 0)
      = Ok (slice_shape ix (shape_of s), st, off)
    /\ slice_enumeration h s true (slice_shape ix (shape_of s)) st off = Ok l
    /\ slice_enumeration h s false (slice_shape ix (shape_of s)) st off = Ok m
    /\ enumerates h s ix l m.
Proof.
  intros h s ix [f Hr] Hb Hp Hok Hne.
  assert (D : is_sparse s \/ (exists t, s = SStrided t) \/ (exists sh rd rsh rs ro d, s = SDM sh rd rsh rs ro d)).
  { destruct s; cbn [is_sparse]; auto; try (right; left; eauto; fail); try (right; right; repeat eexists; fail).
    - now contradiction (Hb b).
    - destruct Hr as (E & [] & _). }
  destruct D as [Hs|[(t & ->)|(sh & rd & rsh & rs & ro & d & ->)]].
  - destruct (sparse_entries h s f Hr Hs) as (E & HE & Hf).
    assert (Est : strides_of s = make_strides (shape_of s)) by (destruct s; try contradiction; reflexivity).
    set (pos := fun i => option_map DInt (zpos (epos E i))).
    destruct (sorted_ok h s ix pos Est Hp Hok Hne) as (st & off & E1 & E2).
    { intros i Hi. assert (X : data_position h s i = (o <- flat_data_position h s i ;; Ok (option_map DInt o)))
        by (destruct s; try contradiction; reflexivity).
      rewrite X, (flat_data_position_ok h s E i HE Hi). reflexivity. }
    destruct (sparse_positions h s E ix HE Hp Hok Hne) as (L & d & F1 & F2 & F3 & F4).
    destruct (normalize_index ix (shape_of s)) as [nix|] eqn:En; [|discriminate]. cbn [bind] in E1, F1.
    rewrite E1 in F1. cbn [bind] in F1. rewrite F2 in F1. cbn [bind] in F1.
    destruct (slice_iad _ _ _ _ _) as [L'|] eqn:Ei; [|discriminate]. cbn [bind] in F1. injection F1 as ->.
    eexists st, off, _, _. split; [exact E1|].
    assert (X1 : slice_enumeration h s true (slice_shape ix (shape_of s)) st off
                 = sorted_slice_iad h s (slice_shape ix (shape_of s)) st off) by (destruct s; try contradiction; reflexivity).
    assert (X2 : slice_enumeration h s false (slice_shape ix (shape_of s)) st off
                 = Ok (int_positions L)).
    { destruct s; try contradiction; cbn [slice_enumeration]; rewrite Ei; reflexivity. }
    split; [rewrite X1; exact E2|]. split; [exact X2|].
    assert (Hpos : forall i p, In (i, p) (numbered E) <-> epos E i = Some (Z.to_nat p) /\ 0 <= p).
    { intros i p. rewrite In_numbered. split.
      - intros [Hk ->]. split; [|lia]. assert (Hk' : (Z.to_nat p < length E)%nat) by (unfold zlen in Hk; lia).
        destruct (epos E (fst (nth (Z.to_nat p) E ([], VNone)))) as [k|] eqn:Ek.
        + f_equal. apply epos_some in Ek. destruct Ek as [Ek1 Ek2].
          pose proof (ordered_NoDup _ _ (entries_ordered h s E HE)) as Hnd.
          rewrite NoDup_nth with (d := []) in Hnd. apply Hnd; rewrite ?map_length; auto.
          change [] with (fst (([] : list Z), VNone)). now rewrite !map_nth.
        + exfalso. apply epos_none in Ek. apply Ek, in_map, nth_In. exact Hk'.
      - intros [Ek Hk]. apply epos_some in Ek. destruct Ek as [Ek1 Ek2]. split; [unfold zlen; lia|auto]. }
    apply enumerates_intro; auto.
    + intros i Hi. unfold pos. split.
      * rewrite (stored_sparse h s E i HE Hp). destruct (epos E i) as [k|] eqn:Ek; cbn.
        -- split; [discriminate|]. intros N. exfalso. apply N. apply epos_some in Ek. destruct Ek as [Ek1 <-]. now apply in_map, nth_In.
        -- split; [|reflexivity]. intros _. now apply epos_none.
      * intros p Hpp. pose proof (flat_get_elem_ok h s E i HE Hi) as G. unfold flat_get_elem in G.
        rewrite (flat_data_position_ok h s E i HE Hi) in G. cbn [bind] in G.
        destruct (epos E i) as [k|]; [|discriminate]. cbn in Hpp, G. injection Hpp as <-.
        rewrite (repr_get h s f i Hr Hi), (Hf i Hi), <- G. destruct s; try contradiction; reflexivity.
    + apply NoDup_map_inv with (f := snd). unfold int_positions. rewrite map_map. cbn [snd].
      rewrite <- (map_map snd (fun z => Some (DInt z))). apply FinFun.Injective_map_NoDup; [|exact F4].
      intros a b Eab. congruence.
    + intros j o. unfold int_positions. rewrite in_map_iff. split.
      * intros ([j' p] & Ej & Hin). cbn [fst snd] in Ej. injection Ej as -> <-. apply F3 in Hin. destruct Hin as [Hj Hin].
        split; [exact Hj|]. split; [|discriminate]. apply Hpos in Hin. destruct Hin as [Hin Hp0]. unfold pos. rewrite Hin. cbn. now rewrite Z2Nat.id.
      * intros (Hj & Ho & Hn). unfold pos in Ho. destruct (epos E _) as [k|] eqn:Ek; cbn in Ho; [|congruence].
        exists (j, Z.of_nat k). cbn [fst snd]. split; [now rewrite Ho|]. apply F3. split; [exact Hj|]. apply Hpos.
        split; [now rewrite Nat2Z.id|lia].
  - pose proof Hr as (l & Hl & Ht & Hf). cbn [shape_of strides_of] in *.
    destruct (strided_positions t l ix Ht Hp Hok) as (L & E1 & E2 & E3 & E4 & E5).
    destruct (index_strided_full ix (sshape t) (sstrides t) 0 Hp Hok (so_strides _ _ Ht)) as (nix & st & off & F1 & F2 & F3 & F4).
    rewrite F1 in E1 |- *. cbn [bind] in E1 |- *. rewrite F2 in E1. cbn [bind] in E1.
    exists st, off, (int_positions L), (int_positions L). split; [exact F2|].
    cbn [slice_enumeration]. rewrite E1. cbn [bind]. split; [reflexivity|]. split; [reflexivity|].
    unfold enumerates. cbn [shape_of]. unfold int_positions. rewrite map_map. cbn [fst].
    change (map (fun x : list Z * Z => fst x) L) with (map fst L). rewrite E5.
    split; [split; [apply cart_sorted|intros i; apply In_cart]|]. split.
    + intros j o Hin. apply in_map_iff in Hin. destruct Hin as ([j' p] & Ej & Hin). cbn [fst snd] in Ej. injection Ej as -> <-.
      apply E2 in Hin. destruct Hin as [Hj Hsp].
      assert (B : in_box (source_index ix (sshape t) j) (sshape t)) by now apply source_index_in_box.
      split.
      * split; [discriminate|]. intros N. exfalso. apply N. now apply (stored_dense h (SStrided t) f _ Hr I).
      * intros q Hq. injection Hq as <-. cbn [read_data data_buffer bind].
        rewrite (repr_get h (SStrided t) f _ Hr B), (Hf _ B), <- Hsp. unfold buf_get, cell. rewrite Hl. cbn [bind].
        pose proof (so_pos _ _ Ht _ B) as Pb. pose proof (so_end _ _ Ht) as Pe. rewrite <- Hsp in Pb.
        apply pyget_ok. lia.
    + rewrite filter_all; [apply Permutation_refl|]. intros e He. apply in_map_iff in He.
      destruct He as (e' & <- & _). reflexivity.
  - pose proof Hr as (g & Hg & Hd & Hf). cbn [shape_of strides_of] in *.
    set (pos := fun i => Some (DTup (dm_index rd rs ro i))).
    destruct (sorted_ok h (SDM sh rd rsh rs ro d) ix pos eq_refl Hp Hok Hne) as (st & off & E1 & E2).
    { intros i Hi. cbn [data_position shape_of] in *. rewrite (dm_rshapes _ _ _ _ _ _ Hd).
      rewrite reduce_index_dm; [reflexivity|apply (dm_rstrides _ _ _ _ _ _ Hd)| |apply (dm_roffset _ _ _ _ _ _ Hd)].
      rewrite (in_box_zlen _ _ Hi). apply perm_axes, (dm_perm _ _ _ _ _ _ Hd). }
    destruct (dm_positions sh rd rsh rs ro _ ix Hd Hp Hok Hne) as (L & F1 & F2 & F3 & F4).
    cbn [shape_of strides_of] in E1, E2.
    destruct (normalize_index ix sh) as [nix|] eqn:En; [|discriminate]. cbn [bind] in E1, F1.
    rewrite E1 in F1. cbn [bind] in F1.
    eexists st, off, _, _. split; [exact E1|]. split; [exact E2|].
    cbn [slice_enumeration]. rewrite F1. cbn [bind]. split; [reflexivity|].
    apply (enumerates_intro h (SDM sh rd rsh rs ro d) ix pos (tup_positions L)); auto.
    + intros i Hi. unfold pos. split.
      * split; [discriminate|]. intros N. exfalso. apply N. now apply (stored_dense h (SDM sh rd rsh rs ro d) f _ Hr I).
      * intros p Hpp. injection Hpp as <-. cbn [read_data]. rewrite (repr_get _ (SDM sh rd rsh rs ro d) f i Hr Hi), (Hf i Hi).
        apply (repr_get h d g _ Hg). now apply (dm_box _ _ _ _ _ _ Hd).
    + apply NoDup_map_inv with (f := snd). unfold tup_positions. rewrite map_map. cbn [snd].
      rewrite <- (map_map snd (fun z => Some (DTup z))). apply FinFun.Injective_map_NoDup; [|exact F3].
      intros a b Eab. congruence.
    + intros j o. unfold tup_positions. rewrite in_map_iff. split.
      * intros ([j' p] & Ej & Hin). cbn [fst snd] in Ej. injection Ej as -> <-. apply F2 in Hin. destruct Hin as [Hj ->].
        split; [exact Hj|]. split; [reflexivity|discriminate].
      * intros (Hj & Ho & Hn). exists (j, dm_index rd rs ro (source_index ix sh j)). cbn [fst snd]. split; [now rewrite <- Ho|].
        apply F2. auto.
Qed.
Print Assumptions C51_enumerations.

(** get_data_position answers for every element of every array: no position
    exactly when the element is not stored, and otherwise where its value is
    read from. *)
Theorem C51_position : forall h s i,
  valid h s -> (forall b, s <> SBuffer b) -> positive (shape_of s) -> in_box i (shape_of s) ->
  exists o, data_position h s i = Ok o
    /\ (o = None <-> ~ stored h s i)
    /\ forall p, o = Some p -> read_data h s p = get_elem h s i.
Proof.
  intros h s i [f Hr] Hb Hp Hi.
  assert (D : is_sparse s \/ (exists t, s = SStrided t) \/ (exists sh rd rsh rs ro d, s = SDM sh rd rsh rs ro d)).
  { destruct s; cbn [is_sparse]; auto; try (right; left; eauto; fail); try (right; right; repeat eexists; fail).
    - now contradiction (Hb b).
    - destruct Hr as (E & [] & _). }
  destruct D as [Hs|[(t & ->)|(sh & rd & rsh & rs & ro & d & ->)]].
  - destruct (sparse_entries h s f Hr Hs) as (E & HE & Hf).
    exists (option_map DInt (zpos (epos E i))). split; [|split].
    + assert (X : data_position h s i = (o <- flat_data_position h s i ;; Ok (option_map DInt o)))
        by (destruct s; try contradiction; reflexivity).
      rewrite X, (flat_data_position_ok h s E i HE Hi). reflexivity.
    + rewrite (stored_sparse h s E i HE Hp). destruct (epos E i) as [k|] eqn:Ek; cbn.
      * split; [discriminate|]. intros N. exfalso. apply N. apply epos_some in Ek. destruct Ek as [Ek1 <-]. now apply in_map, nth_In.
      * split; [|reflexivity]. intros _. now apply epos_none.
    + intros p Hpp. pose proof (flat_get_elem_ok h s E i HE Hi) as G. unfold flat_get_elem in G.
      rewrite (flat_data_position_ok h s E i HE Hi) in G. cbn [bind] in G.
      destruct (epos E i) as [k|]; [|discriminate]. cbn in Hpp, G. injection Hpp as <-.
      rewrite (repr_get h s f i Hr Hi), (Hf i Hi), <- G. destruct s; try contradiction; reflexivity.
  - pose proof Hr as (l & Hl & Ht & Hf). cbn [shape_of] in *.
    exists (Some (DInt (zdot i (sstrides t)))). split; [|split].
    + cbn [data_position flat_data_position]. rewrite get_position_ok;
        [reflexivity|now apply in_box_len|exact (so_strides _ _ Ht)].
    + split; [discriminate|]. intros N. exfalso. apply N. now apply (stored_dense h (SStrided t) f _ Hr I).
    + intros p Hpp. injection Hpp as <-. cbn [read_data data_buffer bind].
      rewrite (repr_get h (SStrided t) f _ Hr Hi), (Hf _ Hi). unfold buf_get, cell. rewrite Hl. cbn [bind].
      pose proof (so_pos _ _ Ht _ Hi) as Pb. pose proof (so_end _ _ Ht) as Pe.
      apply (pyget_ok l (spos t i)). lia.
  - pose proof Hr as (g & Hg & Hd & Hf). cbn [shape_of] in *.
    exists (Some (DTup (dm_index rd rs ro i))). split; [|split].
    + cbn [data_position]. rewrite (dm_rshapes _ _ _ _ _ _ Hd).
      rewrite reduce_index_dm; [reflexivity|apply (dm_rstrides _ _ _ _ _ _ Hd)| |apply (dm_roffset _ _ _ _ _ _ Hd)].
      rewrite (in_box_zlen _ _ Hi). apply perm_axes, (dm_perm _ _ _ _ _ _ Hd).
    + split; [discriminate|]. intros N. exfalso. apply N. now apply (stored_dense h (SDM sh rd rsh rs ro d) f _ Hr I).
    + intros p Hpp. injection Hpp as <-. cbn [read_data]. rewrite (repr_get _ (SDM sh rd rsh rs ro d) f i Hr Hi), (Hf i Hi).
      apply (repr_get h d g _ Hg). now apply (dm_box _ _ _ _ _ _ Hd).
Qed.
Print Assumptions C51_position.

Example C51_case :
  ('(s, h) <- fromobject CCSR [] (SrcSeq nested_2x3) (fo_unspecified (Some (VInt 0))) ;;
   nix <- normalize_index (XTuple [ISlice (Sl None None (Some (-1))); ISlice (Sl None None (Some 2))]) (shape_of s) ;;
   '(sh, st, off) <- index_strided nix (shape_of s) (strides_of s) 0 ;;
   l <- slice_enumeration h s true sh st off ;; m <- slice_enumeration h s false sh st off ;; Ok (l, m))
  = Ok ([([0; 0], None); ([0; 1], None); ([1; 0], Some (DInt 0)); ([1; 1], Some (DInt 1))],
        [([1; 0], Some (DInt 0)); ([1; 1], Some (DInt 1))]).
Proof. vm_compute. reflexivity. Qed.

(** ** C52 *)

Theorem C52_slice_indices : forall sh0 sh st ix,
  positive sh0 -> view_of sh0 sh st -> positive sh -> ok_index ix sh -> slice_shape ix sh <> [] ->
  exists nix st1 off, normalize_index ix sh = Ok nix
    /\ index_strided nix sh st 0 = Ok (slice_shape ix sh, st1, off)
    /\ (forall j, in_box j (slice_shape ix sh) ->
          get_index_slice j sh st (slice_shape ix sh) st1 off = Ok (Some (source_index ix sh j))
          /\ get_slice_index (source_index ix sh j) sh st (slice_shape ix sh) st1 off = Ok (Some j))
    /\ (forall i, in_box i sh -> (forall j, in_box j (slice_shape ix sh) -> source_index ix sh j <> i) ->
          get_slice_index i sh st (slice_shape ix sh) st1 off = Ok None).
Proof.
  intros sh0 sh st ix Hp0 Hv Hp Hok Hne.
  assert (Hl : length st = length sh) by (symmetry; exact (sliced_length _ _ _ (view_sliced _ _ _ Hp0 Hv))).
  assert (Hsh : sh <> []).
  { intros E. rewrite E in Hne. apply Hne. unfold slice_shape. now destruct (index_items ix) as [|[]]. }
  destruct (index_strided_full ix sh st 0 Hp Hok Hl) as (nix & st1 & off & E1 & E2 & E3 & E4).
  exists nix, st1, off. split; [exact E1|]. split; [exact E2|].
  assert (Hv1 : view_of sh0 (slice_shape ix sh) st1) by (eapply view_slice; eauto).
  assert (K : forall i, in_box i sh -> exists r, get_slice_index i sh st (slice_shape ix sh) st1 off = Ok r
     /\ forall j, r = Some j <-> in_box j (slice_shape ix sh) /\ source_index ix sh j = i).
  { intros i Hi. unfold get_slice_index. rewrite get_position_ok; [|now apply in_box_len|exact Hl]. cbn [bind].
    destruct (C15_solve_views sh0 _ _ (zdot i st - off) Hp0 Hv1 Hne) as (r & Er & Hr). exists r. split; [exact Er|].
    intros j. rewrite Hr. split; intros [Hj Hd]; (split; [exact Hj|]); destruct (E4 j Hj) as [B Eq].
    - destruct (C15_solve_views sh0 sh st (zdot i st) Hp0 Hv Hsh) as (q & _ & Hq).
      pose proof (proj2 (Hq i) (conj Hi eq_refl)) as Q1.
      pose proof (proj2 (Hq (source_index ix sh j)) ltac:(split; [exact B|lia])) as Q2. congruence.
    - rewrite Hd in Eq. lia. }
  split.
  - intros j Hj. destruct (E4 j Hj) as [B Eq]. split.
    + unfold get_index_slice, get_index. rewrite get_position_ok; [|now apply in_box_len|exact E3]. cbn [bind].
      destruct (C15_solve_views sh0 sh st (zdot j st1 + off) Hp0 Hv Hsh) as (q & Eq' & Hq). rewrite Eq'. f_equal.
      apply Hq. split; [exact B|lia].
    + destruct (K _ B) as (r & Er & Hr). rewrite Er. f_equal. now apply Hr.
  - intros i Hi Hno. destruct (K i Hi) as (r & Er & Hr). rewrite Er. destruct r as [j|]; [|reflexivity].
    destruct (proj1 (Hr j) eq_refl) as [Hj Hs]. now contradiction (Hno j Hj).
Qed.
Print Assumptions C52_slice_indices.

Example C52_case :
  let ix := XTuple [ISlice (Sl None None (Some (-2))); IInt 1; ISlice (Sl (Some 1) None (Some 3))] in
  get_index_slice [1; 1] [5; 2; 6] [12; 6; 1] [3; 2] [-24; 3] 55 = Ok (Some [2; 1; 4])
  /\ source_index ix [5; 2; 6] [1; 1] = [2; 1; 4]
  /\ get_slice_index [2; 1; 4] [5; 2; 6] [12; 6; 1] [3; 2] [-24; 3] 55 = Ok (Some [1; 1])
  /\ get_slice_index [2; 1; 3] [5; 2; 6] [12; 6; 1] [3; 2] [-24; 3] 55 = Ok None.
Proof. vm_compute. repeat split. Qed.

(** ** C53 *)

(** The items met by the first [n] rounds of iteration over an array other than
    a Buffer: item [m] is s[m mod len(s)], and the iteration never ends. *)
Fixpoint wrapping_items (s : storage) (k : Z) (h : heap) (l : list (option item)) : Prop :=
  match l with
  | [] => True
  | o :: r => exists it h1, o = Some it
      /\ getitem h s (XItem (IInt (k mod nth 0 (shape_of s) 0))) = Ok (it, h1)
      /\ wrapping_items s (k + 1) h1 r
  end.

Lemma getitem_int_wraps h s k : (forall b, s <> SBuffer b) -> positive (shape_of s) -> shape_of s <> [] ->
  getitem h s (XItem (IInt k)) = getitem h s (XItem (IInt (k mod nth 0 (shape_of s) 0))).
Proof.
  intros Hb Hp Hne. destruct (shape_of s) as [|n sh] eqn:E; [congruence|]. cbn [nth].
  assert (A : forall m, ok_index (XItem (IInt m)) (shape_of s)
                        /\ (length (index_items (XItem (IInt m))) <= length (shape_of s))%nat).
  { intros m. rewrite E. cbn [index_items length]. split; [split; [repeat constructor|right; cbn; lia]|lia]. }
  rewrite <- E in Hp.
  destruct (A k) as [A1 A2]. destruct (A (k mod n)) as [B1 B2].
  destruct (C43_integers_wrap h s (XItem (IInt k)) (SrcSeq VNone) Hb Hp A1 A2) as [<- _].
  destruct (C43_integers_wrap h s (XItem (IInt (k mod n))) (SrcSeq VNone) Hb Hp B1 B2) as [<- _].
  rewrite E in *. unfold wrap. cbn [index_items wrap_items]. inversion Hp; subst. now rewrite Z.mod_mod by lia.
Qed.

Definition iterable (h : heap) (s : storage) : Prop :=
  length (shape_of s) = 1%nat \/ plain s \/ exists h0 h1, built_dm h0 h1 s /\ extends h1 h.

Theorem C53_never_ends_refuted : forall n h s k,
  valid h s -> (forall b, s <> SBuffer b) -> positive (shape_of s) -> shape_of s <> [] -> iterable h s ->
  exists l h', iterate n k h s = Ok (l, h') /\ length l = n /\ extends h h' /\ wrapping_items s k h l.
Proof.
  induction n as [|n IH]; intros h s k Hv Hb Hp Hne D; cbn [iterate].
  - exists [], h. split; [reflexivity|]. split; [reflexivity|]. split; [apply extends_refl|exact I].
  - assert (Hok : ok_index (XItem (IInt k)) (shape_of s)).
    { split; [repeat constructor|right; destruct (shape_of s); [congruence|cbn; lia]]. }
    assert (G : exists it h1, getitem h s (XItem (IInt k)) = Ok (it, h1) /\ extends h h1).
    { destruct Hv as [f Hr].
      assert (C : slice_shape (XItem (IInt k)) (shape_of s) = []
                  \/ (slice_shape (XItem (IInt k)) (shape_of s) <> [] /\ safe_index s (XItem (IInt k)))).
      { destruct (slice_shape (XItem (IInt k)) (shape_of s)) eqn:Es; [now left|right]. split; [discriminate|].
        destruct D as [D|[D|(h0 & h1 & D & _)]].
        - destruct (shape_of s) as [|m [|]]; try discriminate.
        - now apply plain_safe.
        - destruct (built_dm_ok h0 h1 s D) as (f1 & Hr1 & Hz & _).
          apply (safe_zero s h1 f1); auto. now rewrite Es. }
      destruct C as [C|[C Hs]].
      - eexists _, h. split; [apply (getitem_element s h f); auto; intros b ->; now contradiction (Hb b)|apply extends_refl].
      - destruct (getitem_slice s h f _ Hr Hp Hok C Hs) as (s' & h' & Eg & _ & _ & Ee & _). eauto. }
    destruct G as (it & h1 & Eg & Ee). rewrite Eg.
    destruct (IH h1 s (k + 1)) as (l & h2 & El & Hl & He & Hw); auto.
    { destruct Hv as [f Hr]. exists f. now apply (repr_extends h). }
    { destruct D as [D|[D|(h0 & h2 & D & D2)]]; [now left|right; now left|right; right].
      exists h0, h2. split; [exact D|]. now apply (extends_trans h2 h). }
    rewrite El. cbn [bind]. exists (Some it :: l), h2. split; [reflexivity|]. split; [cbn [length]; congruence|].
    split; [now apply (extends_trans h h1)|]. exists it, h1. split; [reflexivity|]. split; [|exact Hw].
    now rewrite <- getitem_int_wraps.
Qed.
Print Assumptions C53_never_ends_refuted.

(** Iteration over an array whose first axis is empty raises ZeroDivisionError,
    instead of ending. *)
Theorem C53_empty_refuted : forall n h s k sh,
  (forall b, s <> SBuffer b) -> shape_of s = 0 :: sh -> iterate (S n) k h s = Raise ZeroDivisionError.
Proof.
  intros n h s k sh Hb Hs. cbn [iterate].
  assert (N : normalize_index (XItem (IInt k)) (shape_of s) = Raise ZeroDivisionError) by (rewrite Hs; reflexivity).
  destruct s; [now contradiction (Hb b)|..]; cbn [getitem shape_of] in *; unfold strided_getitem; rewrite N; reflexivity.
Qed.
Print Assumptions C53_empty_refuted.

(** Only an array without axes ends, at once. *)
Theorem C53_no_axes : forall n h s k,
  (forall b, s <> SBuffer b) -> shape_of s = [] -> iterate (S n) k h s = Ok ([None], h).
Proof.
  intros n h s k Hb Hs. cbn [iterate].
  assert (N : normalize_index (XItem (IInt k)) (shape_of s) = Raise IndexError) by (rewrite Hs; reflexivity).
  destruct s; [now contradiction (Hb b)|..]; cbn [getitem shape_of] in *; unfold strided_getitem; rewrite N; reflexivity.
Qed.
Print Assumptions C53_no_axes.

(** Iterating over a Buffer: its elements in order, once each. *)
Theorem C53_buffer_partial : forall h b, valid h (SBuffer b) ->
  exists l, buf_values h b = Ok l /\ zlen l = bsize b
    /\ forall k, 0 <= k < bsize b -> exists v, nth_error l (Z.to_nat k) = Some v
         /\ getitem h (SBuffer b) (XItem (IInt k)) = Ok (IVal v, h).
Proof.
  intros h b [f (vs & Hh & _)]. pose proof Hh as (l & Hl & Ho & Hs & He & _). exists vs.
  unfold buf_values. rewrite (cell_ok _ _ _ Hl). cbn [bind]. split; [exact (holds_zrange h b vs l Hh Hl)|].
  split; [congruence|]. intros k Hk. exists (nth (Z.to_nat k) vs VNone). split.
  - apply nth_error_nth'. unfold zlen in *. lia.
  - cbn [getitem]. unfold buffer_getitem, buf_get. cbn [buf_complete_index bind]. rewrite (cell_ok _ _ _ Hl). cbn [bind].
    rewrite (pyget_ok _ _ VNone) by lia. cbn [bind]. now rewrite (holds_nth h b vs l k Hl Hh) by lia.
Qed.
Print Assumptions C53_buffer_partial.

(** Three rounds over [1, 2]: 1, 2, 1. *)
Example C53_case :
  ('(s, h) <- fromobject CStrided [] (SrcSeq (VSeq [VInt 1; VInt 2])) fo_default ;; '(l, _) <- iterate 3 0 h s ;; Ok l)
  = Ok [Some (IVal (VInt 1)); Some (IVal (VInt 2)); Some (IVal (VInt 1))]
  /\ (exists b h, fromobject CBuffer [] (SrcSeq (VSeq [VInt 1; VInt 2])) fo_default = Ok (SBuffer b, h)
        /\ buf_values h b = Ok [VInt 1; VInt 2]).
Proof. split; [vm_compute; reflexivity|]. vm_compute. eauto. Qed.

(** A DM matrix repeats its two rows; an empty list in a Strided array raises. *)
Example C53_case_dm :
  ('(s, h) <- fromobject CDM [] (SrcSeq nested_2x2) fo_default ;; '(l, h') <- iterate 3 0 h s ;;
   match l with
   | [Some (ISto a); Some (ISto b); Some (ISto c)] =>
       x <- get_elem h' a [0] ;; y <- get_elem h' b [0] ;; z <- get_elem h' c [0] ;; Ok [x; y; z]
   | _ => Raise OutOfModel
   end) = Ok [VInt 1; VInt 3; VInt 1]
  /\ ('(s, h) <- fromobject CStrided [] (SrcSeq (VSeq [])) fo_default ;; '(l, _) <- iterate 1 0 h s ;; Ok l)
     = Raise ZeroDivisionError.
Proof. split; vm_compute; reflexivity. Qed.

(** ** C54 *)

Lemma entries_size h s E : entries h s E -> size_of s = Ok (zlen E).
Proof.
  intros HE. destruct s; try contradiction; cbn [size_of].
  - destruct HE as (_ & _ & _ & _ & -> & _). reflexivity.
  - destruct HE as (_ & _ & _ & _ & (l & _ & _ & Hb & _) & _). now rewrite Hb, zlen_map.
  - destruct HE as (_ & _ & _ & (l & _ & _ & Hb & _) & _). now rewrite Hb, zlen_map.
Qed.

Lemma positive_nn sh : positive sh -> nonneg sh.
Proof. apply Forall_impl. intros a. lia. Qed.

Theorem C54_is_full_partial : forall h s, valid h s -> plain s -> positive (shape_of s) ->
  exists b, is_full s = Ok b
    /\ (b = true <-> forall i, in_box i (shape_of s) -> stored h s i).
Proof.
  intros h s [f Hr] Hpl Hp. destruct s as [b|t|sh ind d|sh find d|sh crow col d|a1 a2 a3 a4 a5 a6|a1 a2 a3 a4 a5 a6]; try contradiction.
  1: { unfold is_full. cbn [size_of bind shape_of]. rewrite Z.eqb_refl. exists true. split; [reflexivity|].
       split; [|reflexivity]. intros _ i Hi. now apply (stored_dense h (SStrided t) f i Hr I). }
  all: match goal with |- context [is_full ?x] =>
    destruct (sparse_entries h x f Hr I) as (E & HE & _);
    unfold is_full; rewrite (entries_size h x E HE); cbn [bind]; eexists; split; [reflexivity|];
    rewrite Z.eqb_eq; pose proof (entries_ordered h x E HE) as Ho; set (s := x) in * end.
  all: assert (Hc : product (shape_of s) = zlen (cart (shape_of s)))
    by (rewrite <- (cart_length (shape_of s) (positive_nn _ Hp)); reflexivity).
  all: rewrite Hc; unfold zlen; pose proof (ordered_NoDup _ _ Ho) as Hnd.
  all: assert (Hin : incl (map fst E) (cart (shape_of s)))
    by (intros i Hi; apply in_map_iff in Hi; destruct Hi as (e & <- & He); apply In_cart;
        destruct Ho as [Ho _]; rewrite Forall_forall in Ho; now apply Ho).
  all: split.
  1, 3, 5: intros El i Hi; apply (stored_sparse h s E i HE Hp); apply In_cart in Hi;
    apply (NoDup_length_incl (l' := cart (shape_of s)) Hnd); [rewrite map_length; lia|exact Hin|exact Hi].
  all: intros Hall; rewrite <- (map_length fst E); f_equal; apply Nat.le_antisymm;
    apply NoDup_incl_length; auto; try (apply sorted_NoDup, cart_sorted);
    intros i Hi; apply (stored_sparse h s E i HE Hp); apply Hall; now apply In_cart.
Qed.
Print Assumptions C54_is_full_partial.

Theorem C54_buffer_is_full_partial : forall b, is_full (SBuffer b) = Ok true.
Proof. intros b. unfold is_full. cbn [size_of bind shape_of product]. now rewrite Z.mul_1_r, Z.eqb_refl. Qed.
Print Assumptions C54_buffer_is_full_partial.

(** A slice of a DM keeps the underlying storage, whose size is_full looks at. *)
Theorem C54_dm_refuted : exists s v h, fromobject CDM [] (SrcSeq nested_2x2) fo_default = Ok (s, h)
  /\ getitem h s (XItem (ISlice (Sl (Some 0) (Some 1) None))) = Ok (ISto v, h)
  /\ shape_of v = [1; 2]
  /\ (forall i, in_box i [1; 2] -> stored h v i)
  /\ is_full v = Ok false.
Proof.
  destruct (fromobject CDM [] (SrcSeq nested_2x2) fo_default) as [[s h]|] eqn:Es; [|vm_compute in Es; discriminate].
  vm_compute in Es. injection Es as <- <-. eexists _, _, _. split; [reflexivity|].
  split; [vm_compute; reflexivity|]. split; [reflexivity|]. split; [|reflexivity].
  intros i Hi. apply In_cart in Hi. vm_compute in Hi.
  destruct Hi as [<-|[<-|[]]]; eexists _, _; (split; [vm_compute; reflexivity|]); [now left|right; now left].
Qed.
Print Assumptions C54_dm_refuted.

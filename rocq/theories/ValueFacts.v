(** The functions of Values.v build well-formed arrays, for any [==]. *)
From Coq Require Import Sorting.Sorted Permutation ZifyBool.
From Verif Require Import Py SliceTools Basics Storage Spec SliceFacts IndexFacts
  CompressFacts ReduceFacts SolverFacts SolveFacts Repr ReprFacts ViewFacts BuildFacts SparseFacts ConvFacts FromFacts
  DMFacts ReadFacts Values.

Section Equality.
Variable eqv : pyval -> pyval -> bool.
(** No integer is equal to None. *)
Hypothesis eqv_int : forall z, eqv (VInt z) VNone = false.

Definition plain_int (v : pyval) : Prop := v = VNone \/ exists z, v = VInt z.

Lemma conv_eq_int v : plain_int v -> conv_eq eqv VNone VNone v = v.
Proof.
  unfold conv_eq. intros [->|[z ->]]; [now destruct (eqv VNone VNone)|]. now rewrite eqv_int.
Qed.

(** The element of a copy. *)
Definition copied (su u v : pyval) : pyval := if eqv u su then v else conv_eq eqv su u v.

Definition entries_of_eq (sh : list Z) (u : pyval) (f : list Z -> pyval) : list (list Z * pyval) :=
  specified_eq eqv u (map (fun i => (i, f i)) (cart sh)).

Definition fo_value_eq (src : source) (a : fo_args) (g : list Z -> pyval) (i : list Z) : pyval :=
  conv_eq eqv (get_unspecified src) (fo_get_unspec src a) (g i).

(** Some element is not equal to the unspecified value. *)
Definition some_specified_eq (sh : list Z) (u : pyval) (f : list Z -> pyval) : Prop :=
  exists i, in_box i sh /\ eqv (f i) u = false.

Definition class_ok_eq (c : cls) (sh : list Z) (u : pyval) (f : list Z -> pyval) : Prop :=
  match c with
  | CStrided => True
  | CBuffer => length sh = 1%nat
  | CCOO | CFlatCOO => sh <> []
  | CCSR => length sh = 2%nat /\ some_specified_eq sh u f
  | CC2SR | CDM => False
  end.

(** What is read from an array of class [c]. *)
Definition read_eq (c : cls) (u v : pyval) : pyval :=
  match c with
  | CCOO | CFlatCOO | CCSR => if eqv v u then u else v
  | _ => v
  end.

Lemma entries_of_eq_lookup sh u f i : in_box i sh ->
  lookup (entries_of_eq sh u f) u i = if eqv (f i) u then u else f i.
Proof.
  intros Hi. unfold entries_of_eq, specified_eq. destruct (eqv (f i) u) eqn:E.
  - apply lookup_absent. intros Hin. apply in_map_iff in Hin. destruct Hin as ([j v] & Ej & Hin). cbn in Ej. subst j.
    apply filter_In in Hin. destruct Hin as [Hin Hv]. apply in_map_iff in Hin. destruct Hin as (j & Ej & _).
    injection Ej as -> <-. cbn [snd] in Hv. rewrite E in Hv. discriminate.
  - apply In_lookup.
    + apply sorted_NoDup. apply sorted_map_fst. apply filter_sorted. apply sorted_map_fst. rewrite map_map. cbn [fst].
      rewrite map_id. apply cart_sorted.
    + apply filter_In. split; [apply in_map_iff; exists i; split; [reflexivity|now apply In_cart]|]. cbn [snd]. now rewrite E.
Qed.

Lemma entries_of_eq_In sh u f i v : In (i, v) (entries_of_eq sh u f) <-> in_box i sh /\ v = f i /\ eqv (f i) u = false.
Proof.
  unfold entries_of_eq, specified_eq. rewrite filter_In, in_map_iff. cbn [snd]. split.
  - intros [(j & Ej & Hj) Hv]. injection Ej as -> <-. apply In_cart in Hj. destruct (eqv (f i) u); [discriminate|]. auto.
  - intros (Hi & -> & E). rewrite E. split; [|reflexivity]. exists i. split; [reflexivity|now apply In_cart].
Qed.

Lemma plain_nth zs k : plain_int (nth k (map VInt zs) VNone).
Proof.
  revert k. induction zs as [|z zs IH]; intros [|k]; cbn; try (now left); [right; eauto|apply IH].
Qed.

Lemma collect_ok_eq get g su u idxs : (forall i, In i idxs -> get i = Ok (g i)) ->
  collect_eq eqv get su u idxs = Ok (map (fun i => (i, conv_eq eqv su u (g i))) idxs).
Proof.
  induction idxs as [|i idxs IH]; intros H; cbn [collect_eq map]; [reflexivity|].
  rewrite H by now left. cbn [bind]. rewrite IH; [reflexivity|]. intros j Hj. apply H. now right.
Qed.

Lemma buffer_build_ok_eq get g sh su u h : (forall i, in_box i sh -> get i = Ok (g i)) ->
  let vs := map (fun i => conv_eq eqv su u (g i)) (cart sh) in
  buffer_build_eq eqv get sh su u h = Ok (Buf (zlen vs) 0 (length h) u, h ++ [vs]).
Proof.
  intros H vs. unfold buffer_build_eq. rewrite (collect_ok_eq get g).
  - cbn [bind]. rewrite map_map. cbn [snd]. apply new_buffer_ok.
  - intros i Hi. apply H. now apply In_cart.
Qed.

Lemma strided_build_ok_eq get g sh su u h : nonneg sh -> (forall i, in_box i sh -> get i = Ok (g i)) ->
  let vs := map (fun i => conv_eq eqv su u (g i)) (cart sh) in
  let t := Str sh (make_strides sh) (Buf (zlen vs) 0 (length h) u) in
  strided_build_eq eqv get sh su u h = Ok (t, h ++ [vs])
  /\ strided_ok t vs
  /\ forall i, in_box i sh -> nth (Z.to_nat (spos t i)) vs VNone = conv_eq eqv su u (g i).
Proof.
  intros Hn H vs t. split.
  - unfold strided_build_eq. rewrite (buffer_build_ok_eq get g) by assumption. cbn [bind].
    unfold mk_strided, assert_. replace (zlen sh =? zlen (make_strides sh)) with true.
    + reflexivity.
    + unfold zlen. rewrite make_strides_length. lia.
  - assert (Hz : zlen vs = product sh).
    { unfold vs. rewrite zlen_map. unfold zlen. now apply cart_length. }
    split.
    + constructor; unfold t; cbn [sshape sstrides sdata boff bsize]; auto; try lia.
      * apply make_strides_length.
      * apply zlen_nonneg.
      * intros i Hi. unfold spos. cbn [sdata boff sstrides]. pose proof (ravel_range i sh Hi). lia.
      * intros i j Hi Hj. unfold spos. cbn [sdata boff sstrides]. intros E.
        apply (ravel_inj i j sh); auto.
    + intros i Hi. unfold spos, t. cbn [sdata boff sstrides]. rewrite Z.add_0_l.
      pose proof (ravel_range i sh Hi). unfold vs.
      rewrite nth_indep with (d' := conv_eq eqv su u (g []))
        by (fold vs; unfold zlen in Hz; lia).
      rewrite (map_nth (fun i => conv_eq eqv su u (g i))). now rewrite cart_nth.
Qed.

Lemma repr_strided_build_eq get g sh su u h : nonneg sh -> (forall i, in_box i sh -> get i = Ok (g i)) ->
  exists t h', strided_build_eq eqv get sh su u h = Ok (t, h')
    /\ sshape t = sh /\ bunspec (sdata t) = u /\ baddr (sdata t) = length h
    /\ h' = h ++ [map (fun i => conv_eq eqv su u (g i)) (cart sh)]
    /\ repr h' (SStrided t) (fun i => conv_eq eqv su u (g i)).
Proof.
  intros Hn H. destruct (strided_build_ok_eq get g sh su u h Hn H) as (E & Ht & Hv).
  eexists _, _. split; [exact E|]. cbn [sshape sdata bunspec baddr]. repeat split.
  cbn [repr sdata baddr]. eexists. split; [apply nth_error_new|]. split; [exact Ht|].
  intros i Hi. now rewrite Hv.
Qed.

Lemma buffer_of_ints_eq zs h :
  buffer_of_seq_eq eqv (ints zs) h = Ok (Buf (zlen zs) 0 (length h) VNone, h ++ [map VInt zs]).
Proof.
  unfold buffer_of_seq_eq. rewrite seq_shape_ints.
  rewrite (buffer_build_ok_eq _ (fun i => match i with [x] => nth (Z.to_nat x) (map VInt zs) VNone | _ => VNone end)).
  - rewrite cart_1, map_map.
    replace (map (fun x => conv_eq eqv VNone VNone (nth (Z.to_nat x) (map VInt zs) VNone)) (zseq (zlen zs)))
      with (map VInt zs).
    + now rewrite zlen_map.
    + rewrite <- (map_nth_zseq (map VInt zs) VNone) at 1. rewrite zlen_map.
      apply map_ext_in. intros x Hx. symmetry. apply conv_eq_int, plain_nth.
  - intros i Hi. inversion Hi as [|x ? i' ? Hx Hi']; subst. inversion Hi'; subst.
    cbn [seq_value ints seq_get]. rewrite (pyget_ok _ x VNone) by now rewrite zlen_map. reflexivity.
Qed.

Lemma strided_of_rows_eq (rows : list (list Z)) c h : rows <> [] -> Forall (fun r => zlen r = c) rows ->
  exists t, strided_of_seq_eq eqv (int_rows rows) h = Ok (t, h ++ [map VInt (concat rows)])
    /\ sshape t = [zlen rows; c] /\ sstrides t = [c; 1] /\ baddr (sdata t) = length h
    /\ bunspec (sdata t) = VNone
    /\ holds (h ++ [map VInt (concat rows)]) (sdata t) (map VInt (concat rows)).
Proof.
  intros Hne Hc. destruct rows as [|z rows]; [congruence|].
  unfold strided_of_seq_eq. rewrite (seq_shape_rows c) by now inversion Hc.
  assert (Hc0 : 0 <= c) by (inversion Hc; subst; apply zlen_nonneg).
  set (g := fun i => match i with
                | [x; y] => VInt (nth (Z.to_nat y) (nth (Z.to_nat x) (z :: rows) []) 0)
                | _ => VNone end).
  assert (Eg : map (fun i => conv_eq eqv VNone VNone (g i)) (cart [1 + zlen rows; c])
               = map VInt (concat (z :: rows))).
  { rewrite <- (cart_2_values (z :: rows) c Hc). rewrite zlen_cons. apply map_ext. intros i.
    fold (g i). apply conv_eq_int. unfold g. destruct i as [|x [|y [|? ?]]]; try (now left). right. eauto. }
  destruct (strided_build_ok_eq (seq_value (int_rows (z :: rows))) g [1 + zlen rows; c] VNone VNone h)
    as (E & Ht & Hv).
  - repeat constructor; [pose proof (zlen_nonneg rows); lia|assumption].
  - intros i Hi. apply in_box_2 in Hi. destruct Hi as (x & y & -> & Hx & Hy). unfold int_rows. cbn [seq_value seq_get].
    rewrite (pyget_ok _ x VNone) by (rewrite zlen_map, zlen_cons; lia). cbn [bind].
    rewrite nth_indep with (d' := ints []) by (rewrite map_length; unfold zlen in *; cbn [length]; lia).
    rewrite map_nth. unfold ints at 1.
    assert (Hzc : zlen (nth (Z.to_nat x) (z :: rows) []) = c).
    { rewrite Forall_forall in Hc. apply Hc. apply nth_In. unfold zlen in *. cbn [length]. lia. }
    rewrite (pyget_ok _ y (VInt 0)) by (rewrite zlen_map; lia). cbn [bind].
    rewrite map_nth. reflexivity.
  - rewrite Eg in E. eexists. split; [exact E|]. cbn [sshape sstrides sdata baddr].
    rewrite zlen_cons. split; [reflexivity|]. split.
    { cbn [make_strides product]. f_equal. lia. }
    split; [reflexivity|]. split; [reflexivity|]. apply holds_new.
Qed.

Lemma entries_of_ordered_eq sh u f : ordered sh (entries_of_eq sh u f).
Proof.
  split.
  - apply Forall_forall. intros e He. unfold entries_of_eq, specified_eq in He. apply filter_In in He.
    destruct He as [He _]. apply in_map_iff in He. destruct He as (i & <- & Hi). now apply In_cart.
  - apply sorted_map_fst. apply filter_sorted. apply sorted_map_fst. rewrite map_map. cbn [fst].
    rewrite map_id. apply cart_sorted.
Qed.

Lemma coo_alloc_eq sh E u h : nonneg sh -> sh <> [] -> ordered sh E ->
  let d := Buf (zlen E) 0 (length h) u in
  let h1 := h ++ [map snd E] in
  exists ind h2, strided_of_seq_eq eqv (int_rows (columns (length sh) (map fst E))) h1 = Ok (ind, h2)
    /\ extends h1 h2
    /\ mk_coo sh ind d = Ok (SCOO sh ind d)
    /\ baddr (sdata ind) = S (length h)
    /\ entries h2 (SCOO sh ind d) E.
Proof.
  intros Hn Hne Ho d h1. rewrite columns_column.
  destruct (strided_of_rows_eq (map (fun k => column k E) (seq 0 (length sh))) (zlen E) h1)
    as (t & Et & Hsh & Hst & Ha & Hu & Hh).
  - destruct sh; [congruence|]. discriminate.
  - apply columns_const.
  - exists t. eexists. split; [exact Et|]. split; [apply extends_alloc|].
    rewrite zlen_map in Hsh. assert (Hls : zlen (seq 0 (length sh)) = zlen sh) by (unfold zlen; now rewrite seq_length).
    rewrite Hls in Hsh. split; [|split].
    + unfold mk_coo. rewrite Hsh. change (pyget [zlen sh; zlen E] 1) with (@Ok Z (zlen E)). cbn [bind].
      unfold d, assert_. cbn [bsize]. now rewrite Z.eqb_refl.
    + rewrite Ha. unfold h1. rewrite app_length. cbn. lia.
    + cbn [entries]. split; [exact Hn|]. split; [exact Hne|]. split; [exact Ho|]. split.
      * eapply holds_extends; [apply extends_alloc|]. unfold d.
        rewrite <- (zlen_map snd E). apply holds_new.
      * split; [exact Hsh|]. split; [exact Hst|]. split; [exact Hh|].
        rewrite Ha. unfold d, h1. cbn [baddr]. rewrite app_length. cbn [length]. split; [lia|exact Hu].
Qed.

Lemma coo_build_ok_eq get g sh su u h : nonneg sh -> sh <> [] ->
  (forall i, in_box i sh -> get i = Ok (g i)) ->
  let E := entries_of_eq sh u (fun i => conv_eq eqv su u (g i)) in
  exists ind h', coo_build_eq eqv get sh su u h = Ok (SCOO sh ind (Buf (zlen E) 0 (length h) u), h')
    /\ extends h h'
    /\ baddr (sdata ind) = S (length h)
    /\ entries h' (SCOO sh ind (Buf (zlen E) 0 (length h) u)) E.
Proof.
  intros Hn Hne Hg E. unfold coo_build_eq.
  rewrite (collect_ok_eq get g) by (intros i Hi; apply Hg; now apply In_cart). cbn [bind].
  fold (entries_of_eq sh u (fun i => conv_eq eqv su u (g i))). fold E.
  rewrite new_buffer_ok. cbn [bind]. rewrite zlen_map.
  destruct (coo_alloc_eq sh E u h Hn Hne (entries_of_ordered_eq _ _ _)) as (ind & h2 & E1 & E2 & E3 & Ea & E4).
  rewrite E1. cbn [bind]. rewrite E3. cbn [bind]. exists ind, h2. split; [reflexivity|].
  split; [|split; [exact Ea|exact E4]].
  eapply extends_trans; [apply extends_alloc|exact E2].
Qed.

Lemma flatcoo_build_ok_eq get g sh su u h : nonneg sh -> sh <> [] ->
  (forall i, in_box i sh -> get i = Ok (g i)) ->
  let E := entries_of_eq sh u (fun i => conv_eq eqv su u (g i)) in
  let s := SFlatCOO sh (Buf (zlen E) 0 (S (length h)) VNone) (Buf (zlen E) 0 (length h) u) in
  exists h', flatcoo_build_eq eqv get sh su u h = Ok (s, h')
    /\ extends h h' /\ entries h' s E.
Proof.
  intros Hn Hne Hg E s. unfold flatcoo_build_eq.
  rewrite (collect_ok_eq get g) by (intros i Hi; apply Hg; now apply In_cart). cbn [bind].
  fold (entries_of_eq sh u (fun i => conv_eq eqv su u (g i))). fold E.
  pose proof (entries_of_ordered_eq sh u (fun i => conv_eq eqv su u (g i))) as Ho. fold E in Ho.
  rewrite mapM_positions by apply Ho. cbn [bind].
  rewrite new_buffer_ok. cbn [bind]. rewrite new_buffer_ok. cbn [bind].
  destruct (flatcoo_alloc sh E u h Hn Hne Ho) as [E1 E2].
  rewrite !zlen_map. replace (length (h ++ [map snd E])) with (S (length h)) by (rewrite app_length; cbn; lia).
  rewrite E1. cbn [bind]. eexists. split; [reflexivity|]. split; [|exact E2].
  eapply extends_trans; apply extends_alloc.
Qed.

Lemma buf_copy_ok_eq h b vs u : holds h b vs ->
  let u' := new_unspec (bunspec b) u in
  buf_copy_eq eqv h b u = Ok (Buf (zlen vs) 0 (length h) u', h ++ [map (copied (bunspec b) u') vs]).
Proof.
  intros Hh u'. pose proof Hh as (l & Hl & _). unfold buf_copy_eq. fold (new_unspec (bunspec b) u). fold u'.
  rewrite (cell_ok _ _ _ Hl). cbn [bind]. unfold copied. destruct (eqv u' (bunspec b)) eqn:Eu.
  - rewrite (holds_slice h b vs l Hh Hl), map_id. apply new_buffer_ok.
  - rewrite (holds_zrange h b vs l Hh Hl). cbn [bind]. rewrite new_buffer_ok. now rewrite zlen_map.
Qed.

Lemma strided_copy_ok_eq h t f u : repr h (SStrided t) f ->
  let sh := sshape t in
  let su := bunspec (sdata t) in
  let u' := new_unspec su u in
  strided_copy_eq eqv h t u
  = Ok (Str sh (make_strides sh) (Buf (product sh) 0 (length h) u'),
        h ++ [map (fun i => conv_eq eqv su u' (f i)) (cart sh)]).
Proof.
  intros Hr sh su u'. unfold strided_copy_eq. fold sh su. fold (new_unspec su u). fold u'.
  assert (Hn : nonneg sh) by (destruct Hr as (l & _ & Ht & _); apply (so_shape _ _ Ht)).
  pose proof (cart_length sh Hn) as Hcl.
  set (n := Z.to_nat (product sh)).
  set (vs := map (fun i => conv_eq eqv su u' (f i)) (cart sh)).
  assert (Hvs : length vs = n) by (unfold vs, n; rewrite map_length; lia).
  cbn [alloc]. unfold mk_buffer. rewrite (cell_ok _ _ _ (nth_error_new h _)). cbn [bind].
  unfold assert_ at 1. replace (0 + product sh <=? zlen (repeat u' n)) with true
    by (unfold zlen, n; rewrite repeat_length; lia). cbn [bind].
  unfold mk_strided, assert_. replace (zlen sh =? zlen (make_strides sh)) with true
    by (unfold zlen; rewrite make_strides_length; lia). cbn [bind].
  rewrite (strided_elements_ok h t f Hr). cbn [bind]. fold sh.
  set (t' := Str sh (make_strides sh) (Buf (product sh) 0 (length h) u')).
  match goal with |- bind (?go0 _ _) _ = _ => set (go := go0) end.
  assert (G : forall k, (k <= n)%nat ->
    go (map (fun i => (i, f i)) (skipn (n - k) (cart sh))) (h ++ [firstn (n - k) vs ++ repeat u' k])
    = Ok (h ++ [vs])).
  { induction k as [|k IH]; intros Hk.
    - rewrite Nat.sub_0_r. rewrite skipn_all2 by (unfold n; lia). cbn [repeat map go].
      rewrite app_nil_r, firstn_all2 by lia. reflexivity.
    - assert (Hlt : (n - S k < length (cart sh))%nat) by (unfold n in *; lia).
      assert (Esk : skipn (n - S k) (cart sh) = nth (n - S k) (cart sh) [] :: skipn (n - k) (cart sh)).
      { replace (n - k)%nat with (S (n - S k)) by lia. clear - Hlt. revert Hlt.
        generalize (n - S k)%nat. intros p. revert p. induction (cart sh) as [|x l IHl]; intros p Hp; [cbn in Hp; lia|].
        destruct p; [reflexivity|]. cbn [skipn nth]. apply IHl. cbn in Hp. lia. }
      rewrite Esk. cbn [map]. set (i := nth (n - S k) (cart sh) []) in *.
      assert (Hi : in_box i sh) by (apply In_cart; now apply nth_In).
      unfold go. fold go. 
      assert (Hpos : spos t' i = Z.of_nat (n - S k)).
      { unfold spos, t'. cbn [sdata boff sstrides]. unfold i. now rewrite cart_position. }
      rewrite (strided_set_elem_ok _ t' (firstn (n - S k) vs ++ repeat u' (S k))).
      + cbn [bind]. rewrite Hpos, Nat2Z.id. unfold t' at 1. cbn [sdata baddr]. rewrite set_nth_new.
        rewrite set_nth_app by (rewrite firstn_length; lia). cbn [repeat set_nth].
        rewrite <- (IH ltac:(lia)). f_equal. f_equal. f_equal.
        replace (n - k)%nat with (S (n - S k)) by lia.
        assert (Ef : firstn (S (n - S k)) vs = firstn (n - S k) vs ++ [conv_eq eqv su u' (f i)]).
        { assert (Hlv : (n - S k < length vs)%nat) by lia.
          replace (conv_eq eqv su u' (f i)) with (nth (n - S k) vs (conv_eq eqv su u' (f []))).
          - clear - Hlv. revert Hlv. generalize (n - S k)%nat. generalize (conv_eq eqv su u' (f [])).
            intros d p. revert p. induction vs as [|x l IHl]; intros p Hp; [cbn in Hp; lia|].
            destruct p; [reflexivity|]. cbn [firstn nth app]. f_equal. apply IHl. cbn in Hp. lia.
          - unfold vs. rewrite (map_nth (fun i => conv_eq eqv su u' (f i))). reflexivity. }
        rewrite Ef, <- app_assoc. reflexivity.
      + unfold t'. cbn [sdata baddr]. apply nth_error_new.
      + unfold t'. cbn [sstrides sshape]. apply make_strides_length.
      + exact Hi.
      + rewrite Hpos. unfold zlen. rewrite app_length, firstn_length, repeat_length. lia. }
  specialize (G n (Nat.le_refl n)). rewrite Nat.sub_diag in G. cbn [skipn firstn app] in G.
  rewrite G. reflexivity.
Qed.

Lemma coo_of_flatcoo_ok_eq h sh f d E : entries h (SFlatCOO sh f d) E -> positive sh ->
  exists ind d' h', coo_of_flatcoo_eq eqv h sh f d = Ok (SCOO sh ind d', h')
    /\ extends h h' /\ entries h' (SCOO sh ind d') (map_snd (copied (bunspec d) (bunspec d)) E) /\ bunspec d' = bunspec d
    /\ fresh h (SCOO sh ind d').
Proof.
  intros HE Hp. pose proof HE as (Hn & Hne & Ho & Hd & Hf & _). unfold coo_of_flatcoo_eq.
  rewrite (flatcoo_iad_ok h sh f d E HE Hp). cbn [bind]. rewrite numbered_fst, columns_column.
  destruct (strided_of_rows_eq (map (fun k => column k E) (seq 0 (length sh))) (zlen E) h)
    as (t & Et & Hsh & Hst & Ha & Hu & Hh).
  { destruct sh; [congruence|discriminate]. } { apply columns_const. }
  rewrite Et. cbn [bind]. set (h1 := h ++ [map VInt (concat (map (fun k => column k E) (seq 0 (length sh))))]) in *.
  assert (Hd1 : holds h1 d (map snd E)) by (eapply holds_extends; [apply extends_alloc|exact Hd]).
  rewrite (buf_copy_ok_eq h1 d _ None Hd1). cbn [new_unspec bind].
  rewrite zlen_map in Hsh. rewrite (zlen_map snd E).
  assert (Hls : zlen (seq 0 (length sh)) = zlen sh) by (unfold zlen; now rewrite seq_length).
  rewrite Hls in Hsh. unfold mk_coo. rewrite Hsh.
  change (pyget [zlen sh; zlen E] 1) with (@Ok Z (zlen E)). cbn [bind bsize].
  unfold assert_. rewrite Z.eqb_refl. cbn [bind].
  eexists _, _, _. split; [reflexivity|]. split; [eapply extends_trans; apply extends_alloc|].
  split; [|split; [reflexivity|]].
  - cbn [entries]. split; [exact Hn|]. split; [exact Hne|]. split; [now apply map_snd_ordered|].
    split; [rewrite map_snd_snd, <- (zlen_map snd E); apply holds_new_map|].
    rewrite map_snd_zlen, (map_ext _ _ (fun k => map_snd_column _ k E)). split; [exact Hsh|]. split; [exact Hst|].
    split; [eapply holds_extends; [apply extends_alloc|exact Hh]|].
    rewrite Ha. cbn [baddr]. unfold h1. rewrite length_app1. split; [lia|exact Hu].
  - intros a [<-|[<-|[]]]; cbn [data_addr baddr]; [unfold h1; rewrite length_app1|rewrite Ha]; lia.
Qed.

Lemma flatcoo_of_coo_ok_eq h sh ind d E : entries h (SCOO sh ind d) E ->
  exists f d' h', flatcoo_of_coo_eq eqv h sh ind d = Ok (SFlatCOO sh f d', h')
    /\ extends h h' /\ entries h' (SFlatCOO sh f d') (map_snd (copied (bunspec d) (bunspec d)) E) /\ bunspec d' = bunspec d
    /\ fresh h (SFlatCOO sh f d').
Proof.
  intros HE. pose proof HE as (Hn & Hne & Ho & Hd & _). unfold flatcoo_of_coo_eq.
  rewrite (coo_iad_ok h sh ind d E HE). cbn [bind].
  rewrite mapM_positions by now apply numbered_in_box. cbn [bind].
  assert (Em : map (fun e => zdot (fst e) (make_strides sh)) (numbered E)
               = map (fun e => zdot (fst e) (make_strides sh)) E).
  { rewrite <- !(map_map fst (fun i => zdot i (make_strides sh))). now rewrite numbered_fst. }
  rewrite Em. rewrite new_buffer_ok. cbn [bind].
  set (fs := map VInt (map (fun e => zdot (fst e) (make_strides sh)) E)).
  assert (Hd1 : holds (h ++ [fs]) d (map snd E)) by (eapply holds_extends; [apply extends_alloc|exact Hd]).
  rewrite (buf_copy_ok_eq (h ++ [fs]) d _ None Hd1). cbn [new_unspec bind].
  unfold mk_flatcoo, assert_. cbn [bsize]. unfold fs at 1. rewrite !zlen_map, Z.eqb_refl. cbn [bind].
  eexists _, _, _. split; [reflexivity|]. split; [eapply extends_trans; apply extends_alloc|].
  split; [|split; [reflexivity|]].
  - cbn [entries]. split; [exact Hn|]. split; [exact Hne|]. split; [now apply map_snd_ordered|].
    split; [rewrite map_snd_snd, <- (zlen_map snd E); apply holds_new_map|]. split.
    + eapply holds_extends; [apply extends_alloc|]. unfold map_snd. rewrite map_map. cbn [fst]. rewrite c_strides_make.
      rewrite <- (map_map (fun e => zdot (fst e) (make_strides sh)) VInt). fold fs. apply holds_new.
    + cbn [baddr bunspec]. rewrite length_app1. split; [lia|reflexivity].
  - intros a [<-|[<-|[]]]; cbn [data_addr baddr]; rewrite ?length_app1; lia.
Qed.

Lemma csr_of_coo_ok_eq h n m ind d E : entries h (SCOO [n; m] ind d) E -> E <> [] ->
  exists cb cl d' h', csr_of_coo_eq eqv h [n; m] ind d = Ok (SCSR [n; m] cb cl d', h')
    /\ extends h h' /\ entries h' (SCSR [n; m] cb cl d') (map_snd (copied (bunspec d) (bunspec d)) E) /\ bunspec d' = bunspec d
    /\ fresh h (SCSR [n; m] cb cl d').
Proof.
  intros HE Hne. pose proof HE as (Hn & _ & Ho & Hd & Hsh & Hst & Hi & _ & Hiu).
  destruct (coo_indices_ok _ _ _ _ _ HE) as (l & Hl & Hok & Hv).
  assert (HzE : 0 < zlen E) by (destruct E; [congruence|unfold zlen; cbn [length]; lia]).
  change (zlen [n; m]) with 2 in *.
  assert (Hp2 : positive (sshape ind)) by (rewrite Hsh; repeat constructor; lia).
  (* rows of the index array *)
  assert (Hrow : forall h1, nth_error h1 (baddr (sdata ind)) = Some l -> forall j, 0 <= j < 2 ->
    exists r, strided_row h1 ind j = Ok r /\ sshape r = [zlen E]
      /\ baddr (sdata r) = baddr (sdata ind) /\ bunspec (sdata r) = VNone
      /\ strided_ok r l
      /\ forall p, 0 <= p < zlen E -> nth (Z.to_nat (spos r [p])) l VNone
           = VInt (nth (Z.to_nat j) (fst (nth (Z.to_nat p) E ([], VNone))) 0)).
  { intros h1 Hl1 j Hj.
    destruct (strided_slice h1 ind l (XItem (IInt j)) Hl1 Hok Hp2) as (r & Er & Hrs & Hra & Hru & Hro & Hrp).
    { split; [repeat constructor|]. right. rewrite Hsh. cbn. lia. }
    { rewrite Hsh. discriminate. }
    rewrite Hsh in Hrs, Hrp. cbn in Hrs. exists r. unfold strided_row. rewrite Er. cbn [bind].
    split; [reflexivity|]. split; [exact Hrs|]. split; [exact Hra|]. split; [congruence|]. split; [exact Hro|].
    intros p Hp. destruct (Hrp [p]) as [_ Ep]; [rewrite Hrs; repeat constructor; lia|].
    rewrite Ep. change (source_index (XItem (IInt j)) [2; zlen E] [p]) with [j mod 2; p].
    rewrite Z.mod_small by lia. now apply Hv. }
  unfold csr_of_coo_eq. destruct (Hrow h Hl 0 ltac:(lia)) as (r0 & Er0 & Hs0 & Ha0 & _ & Hok0 & Hv0).
  rewrite Er0. cbn [bind]. change (pyget [n; m] 0) with (@Ok Z n). cbn [bind].
  rewrite Hs0. change (pyget [zlen E] 0) with (@Ok Z (zlen E)). cbn [bind].
  rewrite mapM_ok with (g := fun i => nth (Z.to_nat i) (column 0 E) 0).
  2:{ intros i Hiz. apply In_zseq in Hiz. unfold strided_int.
      destruct (strided_slice_element h r0 l (XItem (IInt i))) as [_ Ee]; auto.
      - congruence.
      - rewrite Hs0. repeat constructor. lia.
      - split; [repeat constructor|]. right. rewrite Hs0. cbn. lia.
      - now rewrite Hs0.
      - rewrite Ee, Hs0. cbn [bind item_val].
        change (source_index (XItem (IInt i)) [zlen E] []) with [i mod zlen E].
        rewrite Z.mod_small by lia. rewrite Hv0 by lia. cbn [bind as_int].
        rewrite column_nth by (unfold zlen in *; lia). reflexivity. }
  cbn [bind]. assert (Hc0 : zlen (column 0 E) = zlen E) by apply zlen_map.
  rewrite <- Hc0, map_nth_zseq. rewrite (compress_column n m) by assumption. cbn [bind].
  rewrite buffer_of_ints_eq. cbn [bind]. set (h1 := h ++ [map VInt (crow_of n E)]).
  assert (Hl1 : nth_error h1 (baddr (sdata ind)) = Some l) by (eapply extends_cell; [apply extends_alloc|exact Hl]).
  destruct (Hrow h1 Hl1 1 ltac:(lia)) as (r1 & Er1 & Hs1 & Ha1 & Hu1 & Hok1 & Hv1).
  rewrite Er1. cbn [bind].
  set (g := fun i => match i with [p] => VInt (nth 1 (fst (nth (Z.to_nat p) E ([], VNone))) 0) | _ => VNone end).
  assert (Hgi : forall i, conv_eq eqv VNone VNone (g i) = g i).
  { intros i. apply conv_eq_int. unfold g. destruct i as [|p [|? ?]]; try (now left). right. eauto. }
  assert (Hr1 : repr h1 (SStrided r1) g).
  { cbn [repr]. exists l. rewrite Ha1. split; [exact Hl1|]. split; [exact Hok1|].
    intros i Hib. rewrite Hs1 in Hib. destruct (in_box_1 _ _ Hib) as (p & -> & Hp).
    rewrite Hv1 by exact Hp. reflexivity. }
  rewrite (strided_copy_ok_eq h1 r1 g None Hr1). cbn [bind new_unspec]. rewrite Hs1.
  set (cs := map (fun i => conv_eq eqv (bunspec (sdata r1)) (bunspec (sdata r1)) (g i)) (cart [zlen E])).
  assert (Ecs : cs = map VInt (column 1 E)).
  { unfold cs. rewrite cart_1, map_map. unfold column. rewrite map_map.
    transitivity (map (fun p => VInt (nth 1 (fst (nth (Z.to_nat p) E ([], VNone))) 0)) (zseq (zlen E))).
    - apply map_ext. intros p. rewrite Hu1, Hgi. reflexivity.
    - rewrite <- (map_map (fun p => nth (Z.to_nat p) E ([], VNone)) (fun e => VInt (nth 1 (fst e) 0))).
      now rewrite map_nth_zseq. }
  set (h2 := h1 ++ [cs]).
  set (t2 := Str [zlen E] (make_strides [zlen E]) (Buf (product [zlen E]) 0 (length h1) (bunspec (sdata r1)))).
  assert (Hr2 : repr h2 (SStrided t2) g).
  { destruct (strided_build_ok_eq (fun i => Ok (g i)) g [zlen E] (bunspec (sdata r1)) (bunspec (sdata r1)) h1)
      as (_ & Hok2 & Hv2).
    - repeat constructor. lia.
    - reflexivity.
    - fold cs in Hok2, Hv2. replace (zlen cs) with (product [zlen E]) in Hok2, Hv2.
      + fold t2 in Hok2, Hv2. cbn [repr]. exists cs. unfold t2 at 1. cbn [sdata baddr].
        split; [apply nth_error_new|]. split; [exact Hok2|].
        intros i Hib. rewrite Hv2 by exact Hib. now rewrite Hu1, Hgi.
      + rewrite Ecs, zlen_map. unfold column. rewrite zlen_map. cbn [product]. lia. }
  unfold buffer_fromobject_eq, is_default, fo_default. cbn [fo_get_shape fo_shape get_shape shape_of].
  rewrite (buffer_build_ok_eq _ g).
  2:{ intros i Hib. unfold fo_get. cbn [fo_gsi]. apply get_value_repr; auto. discriminate. }
  cbn [bind]. change (sshape t2) with [zlen E].
  assert (Ecs2 : map (fun i => conv_eq eqv (get_unspecified (SrcSto (SStrided t2)))
             (fo_get_unspec (SrcSto (SStrided t2)) {| fo_shape := None; fo_gsi := None; fo_unspec := None |}) (g i))
             (cart [zlen E]) = cs).
  { unfold cs. apply map_ext. intros i. reflexivity. }
  rewrite Ecs2, Ecs.
  set (h3 := h2 ++ [map VInt (column 1 E)]).
  assert (Hx : extends h h3).
  { unfold h3, h2, h1. eapply extends_trans; [|apply extends_alloc].
    eapply extends_trans; apply extends_alloc. }
  assert (Hd3 : holds h3 d (map snd E)) by (eapply holds_extends; eassumption).
  rewrite (buf_copy_ok_eq h3 d _ None Hd3). cbn [bind new_unspec].
  set (h4 := h3 ++ [map (copied (bunspec d) (bunspec d)) (map snd E)]).
  match goal with |- context [mk_csr _ ?b1 ?b2 ?b3] => set (cb := b1); set (cl := b2); set (db := b3) end.
  assert (L1 : length h1 = S (length h)) by apply length_app1.
  assert (L2 : length h2 = S (length h1)) by apply length_app1.
  assert (L3 : length h3 = S (length h2)) by apply length_app1.
  assert (Hcr : crow_of n (map_snd (copied (bunspec d) (bunspec d)) E) = crow_of n E).
  { unfold crow_of. now rewrite map_snd_column. }
  destruct (csr_entries h4 n m cb cl db (map_snd (copied (bunspec d) (bunspec d)) E)) as [He' Emk]; auto.
  { now apply map_snd_ordered. }
  { rewrite map_snd_snd. unfold db. apply holds_new_map. }
  { rewrite Hcr. unfold cb. rewrite <- (zlen_map VInt (crow_of n E)). eapply holds_extends; [|apply holds_new].
    fold h1. eapply extends_trans; [|apply extends_alloc].
    unfold h3, h2. eapply extends_trans; apply extends_alloc. }
  { rewrite map_snd_column. unfold cl. eapply holds_extends; [apply extends_alloc|]. apply holds_new. }
  { unfold cb, db. cbn [baddr]. lia. } { unfold cl, db. cbn [baddr]. lia. }
  rewrite Emk. cbn [bind]. exists cb, cl, db, h4. split; [reflexivity|].
  split; [eapply extends_trans; [exact Hx|apply extends_alloc]|]. split; [exact He'|].
  split; [reflexivity|]. unfold cb, cl, db. intros a [<-|[<-|[<-|[]]]]; cbn [data_addr baddr]; lia.
Qed.

Lemma coo_fromobject_build_eq h src a : no_shortcut CCOO src a ->
  coo_fromobject_eq eqv h src a = coo_build_eq eqv (fo_get h src a) (fo_get_shape src a)
                      (get_unspecified src) (fo_get_unspec src a) h.
Proof.
  unfold no_shortcut, coo_fromobject_eq. destruct src as [v|[]]; try reflexivity;
    destruct (is_default a); try reflexivity; contradiction.
Qed.

Lemma build_class_eq c h src a sh g : no_shortcut c src a -> reads h src a sh g ->
  class_ok_eq c sh (fo_get_unspec src a) (fo_value_eq src a g) ->
  exists s h', flat_fromobject_eq eqv c h src a = Ok (s, h') /\ is_class c s
    /\ shape_of s = sh /\ unspecified_of s = fo_get_unspec src a
    /\ extends h h' /\ fresh h s
    /\ repr h' s (fun i => read_eq c (fo_get_unspec src a) (fo_value_eq src a g i))
    /\ (is_sparse s -> entries h' s (entries_of_eq sh (fo_get_unspec src a) (fo_value_eq src a g))).
Proof.
  intros Hns (Hsh & Hn & Hg) Hc. set (su := get_unspecified src) in *. set (u := fo_get_unspec src a) in *.
  destruct c; cbn [class_ok_eq] in Hc; try contradiction; cbn [flat_fromobject_eq].
  - (* Buffer *)
    assert (Eb : buffer_fromobject_eq eqv h src a = buffer_build_eq eqv (fo_get h src a) (fo_get_shape src a) su u h).
    { unfold no_shortcut in Hns. unfold buffer_fromobject_eq. destruct src as [v|[]]; try reflexivity;
        destruct (is_default a); try reflexivity; contradiction. }
    rewrite Eb, Hsh. rewrite (buffer_build_ok_eq _ g) by assumption. cbn [bind].
    set (vs := map (fun i => conv_eq eqv su u (g i)) (cart sh)).
    eexists _, _. split; [reflexivity|]. split; [exact I|]. cbn [shape_of unspecified_of bsize bunspec].
    destruct sh as [|n [|? ?]]; cbn in Hc; try lia.
    assert (Hz : zlen vs = n).
    { unfold vs. rewrite zlen_map, cart_1, zlen_map, zseq_length. inversion Hn; lia. }
    rewrite Hz. split; [reflexivity|]. split; [reflexivity|]. split; [apply extends_alloc|].
    split; [intros x [<-|[]]; cbn; lia|]. split; [|intros []].
    cbn [repr]. exists vs. split; [rewrite <- Hz; apply holds_new|].
    intros x Hx. unfold vs. rewrite Hz in Hx. rewrite cart_1, map_map.
    rewrite nth_indep with (d' := conv_eq eqv su u (g [0])) by (rewrite map_length, zseq_length_nat; lia).
    rewrite (map_nth (fun x => conv_eq eqv su u (g [x]))). rewrite nth_zseq by lia. reflexivity.
  - (* Strided *)
    assert (Eb : strided_fromobject_eq eqv h src a = strided_build_eq eqv (fo_get h src a) (fo_get_shape src a) su u h).
    { unfold no_shortcut in Hns. unfold strided_fromobject_eq. destruct src as [v|[]]; try reflexivity;
        destruct (is_default a); try reflexivity; contradiction. }
    rewrite Eb, Hsh.
    destruct (repr_strided_build_eq (fo_get h src a) g sh su u h Hn Hg) as (t & h' & E1 & E2 & E3 & E4 & E5 & E6).
    rewrite E1. cbn [bind]. exists (SStrided t), h'. split; [reflexivity|]. split; [exact I|].
    split; [exact E2|]. split; [exact E3|]. split; [subst h'; apply extends_alloc|].
    split; [intros x [<-|[]]; cbn [data_addr]; lia|]. split; [exact E6|intros []].
  - (* COO *)
    rewrite coo_fromobject_build_eq by assumption. fold su u. rewrite Hsh.
    destruct (coo_build_ok_eq (fo_get h src a) g sh su u h Hn Hc Hg) as (ind & h' & E1 & E2 & Ea & E3).
    rewrite E1. eexists _, _. split; [reflexivity|]. split; [exact I|]. split; [reflexivity|].
    split; [reflexivity|]. split; [exact E2|].
    split; [intros x [<-|[<-|[]]]; cbn [data_addr baddr]; lia|]. split; [|intros _; exact E3].
    eapply repr_ext; [|apply repr_entries, E3]. intros i Hi. now rewrite entries_of_eq_lookup.
  - (* FlatCOO *)
    assert (Eb : flatcoo_fromobject_eq eqv h src a = flatcoo_build_eq eqv (fo_get h src a) (fo_get_shape src a) su u h).
    { unfold no_shortcut in Hns. unfold flatcoo_fromobject_eq. destruct src as [v|[]]; try reflexivity;
        destruct (is_default a); try reflexivity; contradiction. }
    rewrite Eb, Hsh.
    destruct (flatcoo_build_ok_eq (fo_get h src a) g sh su u h Hn Hc Hg) as (h' & E1 & E2 & E3).
    rewrite E1. eexists _, _. split; [reflexivity|]. split; [exact I|]. split; [reflexivity|].
    split; [reflexivity|]. split; [exact E2|].
    split; [intros x [<-|[<-|[]]]; cbn [data_addr baddr]; lia|]. split; [|intros _; exact E3].
    eapply repr_ext; [|apply repr_entries, E3]. intros i Hi. now rewrite entries_of_eq_lookup.
  - (* CSR *)
    destruct Hc as [Hl Hsp]. unfold csr_fromobject_eq. rewrite coo_fromobject_build_eq.
    2:{ clear - Hns. unfold no_shortcut in *. destruct src as [v|[]], (is_default a); auto. }
    fold su u. rewrite Hsh.
    destruct (coo_build_ok_eq (fo_get h src a) g sh su u h Hn) as (ind & h1 & E1 & E2 & Ea & E3); auto.
    { destruct sh; discriminate. }
    rewrite E1. cbn [bind]. destruct sh as [|n [|m [|? ?]]]; cbn in Hl; try lia.
    destruct (csr_of_coo_ok_eq h1 n m _ _ _ E3) as (cb & cl & d' & h' & F1 & F2 & F3 & F4 & F5).
    { intros E0. destruct Hsp as (i & Hi & Hv).
      assert (Hin : In (i, fo_value_eq src a g i) (entries_of_eq [n; m] u (fo_value_eq src a g)))
        by (apply entries_of_eq_In; auto).
      unfold fo_value_eq in Hin. fold su u in Hin. rewrite E0 in Hin. destruct Hin. }
    cbn [bunspec] in F3, F4.
    assert (Em : map_snd (copied u u) (entries_of_eq [n; m] u (fun i => conv_eq eqv su u (g i)))
                 = entries_of_eq [n; m] u (fun i => conv_eq eqv su u (g i))).
    { unfold map_snd. rewrite <- map_id. apply map_ext_in. intros [i v] Hin. apply entries_of_eq_In in Hin.
      destruct Hin as (_ & -> & Hv). cbn [fst snd]. f_equal. unfold copied. destruct (eqv u u); [reflexivity|].
      unfold conv_eq at 1. now rewrite Hv. }
    rewrite Em in F3.
    rewrite F1. eexists _, _. split; [reflexivity|]. split; [exact I|]. split; [reflexivity|].
    split; [exact F4|]. split; [eapply extends_trans; eassumption|].
    split; [eapply fresh_extends; eassumption|]. split; [|intros _; exact F3].
    eapply repr_ext; [|apply repr_entries, F3]. intros i Hi.
    cbn [unspecified_of]. rewrite F4. now rewrite entries_of_eq_lookup.
Qed.

End Equality.

(** * DM *)
Section DM.
Variable eqv : pyval -> pyval -> bool.
Hypothesis eqv_int : forall z, eqv (VInt z) VNone = false.

Definition fo_read (c : cls) (src : source) (a : fo_args) (g : list Z -> pyval) (i : list Z) : pyval :=
  read_eq eqv c (fo_get_unspec src a) (fo_value_eq eqv src a g i).

Definition fo_spec_eq (c : cls) (fo : heap -> source -> fo_args -> res (storage * heap))
    (Cond : list Z -> pyval -> (list Z -> pyval) -> Prop) (K : storage -> Prop) : Prop :=
  forall h src a sh g, is_default a = false -> reads h src a sh g ->
    Cond sh (fo_get_unspec src a) (fo_value_eq eqv src a g) ->
    exists s h', fo h src a = Ok (s, h')
      /\ shape_of s = sh /\ unspecified_of s = fo_get_unspec src a
      /\ extends h h' /\ fresh h s /\ repr h' s (fo_read c src a g) /\ K s.

Lemma flat_fo_spec_eq c : fo_spec_eq c (flat_fromobject_eq eqv c) (class_ok_eq eqv c) (is_class c).
Proof.
  intros h src a sh g Hd Hr Hc.
  destruct (build_class_eq eqv eqv_int c h src a sh g) as (s & h' & E1 & E2 & E3 & E4 & E5 & E6 & E7 & _); auto.
  { unfold no_shortcut. destruct src; [exact I|]. now rewrite Hd. }
  exists s, h'. auto 10.
Qed.

(** What each storage class needs of the reduced array. *)
Definition dm_class_ok_eq (e : pyval -> pyval -> bool) (c : cls) (sh : list Z) (u : pyval) (f : list Z -> pyval) : Prop :=
  match c with CDM => positive sh /\ sh <> [] | _ => class_ok_eq e c sh u f end.

Lemma dm_fromobject_gen_ok_eq c is_buffer fo Cond K h src a dimensions partitioning sh g :
  fo_spec_eq c fo Cond K -> reads h src a sh g -> positive sh ->
  dm_args is_buffer (zlen sh) dimensions partitioning ->
  let rdims := dm_rdims is_buffer (zlen sh) dimensions partitioning in
  Cond (group_shape sh rdims) (fo_get_unspec src a) (fun r => fo_value_eq eqv src a g (promoted sh rdims r)) ->
  exists d h', dm_fromobject_gen is_buffer fo h src a dimensions partitioning
    = Ok (SDM sh rdims (map (gather sh) rdims) (group_strides sh rdims) (repeat 0 (length rdims)) d, h')
    /\ shape_of d = group_shape sh rdims
    /\ unspecified_of d = fo_get_unspec src a
    /\ extends h h'
    /\ fresh h d
    /\ repr h' (SDM sh rdims (map (gather sh) rdims) (group_strides sh rdims) (repeat 0 (length rdims)) d)
            (fo_read c src a g)
    /\ K d.
Proof.
  intros Hfo (Hsh & Hn & Hg) Hp Hargs rdims HC. unfold dm_fromobject_gen. rewrite Hsh.
  fold (dm_dims (zlen sh) dimensions). fold (dm_part is_buffer (zlen sh) partitioning).
  set (part := dm_part is_buffer (zlen sh) partitioning).
  destruct Hargs as [Hdims Hsorted Hrange Hcount Hdist]. fold part in Hsorted, Hrange, Hcount.
  unfold assert_. rewrite (proj2 (is_sorted_Sorted part) Hsorted).
  assert (F1 : forallb (fun p => 0 <? p) part = true).
  { apply forallb_forall. intros p Hin. rewrite Forall_forall in Hrange. specialize (Hrange p Hin). lia. }
  assert (F2 : forallb (fun p => p <? zlen sh) part = true).
  { apply forallb_forall. intros p Hin. rewrite Forall_forall in Hrange. specialize (Hrange p Hin). lia. }
  rewrite F1, F2. replace (match part with [] => true | _ :: _ => true && true && true end) with true
    by (destruct part; reflexivity). cbn [bind].
  replace (zlen part + 1 <=? zlen sh) with true by lia. cbn [bind].
  change (cut (dm_dims (zlen sh) dimensions) ([0] ++ part ++ [zlen sh])) with rdims.
  rewrite (proj2 (distinct_groups_NoDup [] rdims)) by (split; [exact Hdist|intros ? _ []]). cbn [bind].
  assert (Ec : concat rdims = dm_dims (zlen sh) dimensions).
  { apply concat_cut_partition.
    - unfold zlen at 1. rewrite (Permutation_length Hdims), zseq_length_nat. unfold zlen. lia.
    - split; [exact Hsorted|]. eapply Forall_impl; [|exact Hrange]. cbn. intros; lia. }
  assert (Elen : length rdims = S (length part)).
  { unfold rdims, dm_rdims. rewrite cut_length by (cbn; congruence). cbn [app length]. rewrite app_length.
    cbn [length]. fold part. lia. }
  assert (Hperm : Permutation (concat rdims) (zseq (zlen sh))) by now rewrite Ec.
  assert (Hne : rdims <> []) by (destruct rdims; [discriminate|discriminate]).
  rewrite make_reduction_ok by now apply perm_axes. cbn [bind]. rewrite map_zero.
  set (gsi := fun rindex => j <- promote_index (group_shapes sh rdims) rdims (group_strides sh rdims)
                                    (repeat 0 (length rdims)) rindex ;;
                            match fo_gsi a with None => Ok j | Some f => f j end).
  assert (Hreads : reads h src (FO (Some (group_shape sh rdims)) (Some gsi) (fo_unspec a))
                         (group_shape sh rdims) (fun r => g (promoted sh rdims r))).
  { split; [reflexivity|]. split.
    - unfold group_shape. clear - Hp Hperm. assert (Ha := perm_axes _ _ Hperm).
      induction rdims as [|g0 gs IH]; cbn [map]; constructor.
      + cbn [concat] in Ha. apply Forall_app in Ha. destruct Ha as [H1 H2].
        apply Z.lt_le_incl, product_positive. eapply gather_positive; [exact H1|reflexivity|exact Hp].
      + clear - Ha Hp. cbn [concat] in Ha. apply Forall_app in Ha. destruct Ha as [_ Ha].
        induction gs as [|g1 gs IH]; cbn [map]; constructor.
        * cbn [concat] in Ha. apply Forall_app in Ha. destruct Ha as [H1 H2].
          apply Z.lt_le_incl, product_positive. eapply gather_positive; [exact H1|reflexivity|exact Hp].
        * apply IH. cbn [concat] in Ha. apply Forall_app in Ha. tauto.
    - intros r Hr. destruct (reduce_promote sh rdims r Hp Hperm Hr) as (i & Ei & Hi & Hgi).
      unfold fo_get. cbn [fo_gsi]. unfold gsi.
      assert (Epr : promoted sh rdims r = i) by (unfold promoted; now rewrite Ei).
      rewrite Ei, Epr. cbn [bind]. rewrite <- (Hg i Hi). unfold fo_get.
      destruct (fo_gsi a); reflexivity. }
  destruct (Hfo h src (FO (Some (group_shape sh rdims)) (Some gsi) (fo_unspec a)) (group_shape sh rdims)
                (fun r => g (promoted sh rdims r)) eq_refl Hreads)
    as (d & h' & E1 & E2 & E3 & E4 & E5 & E6 & E7).
  { exact HC. }
  rewrite E1. cbn [bind]. rewrite E2.
  replace (zlen (group_shape sh rdims) =? zlen part + 1) with true
    by (unfold group_shape; rewrite zlen_map; unfold zlen; lia). cbn [bind].
  rewrite mk_dm_ok by assumption. cbn [bind].
  exists d, h'. split; [reflexivity|]. split; [exact E2|]. split; [exact E3|]. split; [exact E4|]. split; [exact E5|].
  split; [|exact E7]. cbn [repr]. eexists. split; [exact E6|]. rewrite E2. split; [now apply group_dm_ok|].
  intros i Hi. rewrite dm_index_group. unfold fo_read, fo_value_eq. cbn [fo_get_unspec fo_unspec].
  unfold promoted. now rewrite (promote_reduce sh rdims i Hperm Hi).
Qed.

Lemma dm_fo_spec_eq : fo_spec_eq CDM (fun h src a => dm_fromobject_gen false (flat_fromobject_eq eqv CStrided) h src a None None)
                           (dm_class_ok_eq eqv CDM) (fun s => is_class CDM s /\ zero_off s).
Proof.
  intros h src a sh g Hd Hr [Hp Hne].
  assert (Hn : 0 < zlen sh) by (destruct sh; [congruence|unfold zlen; cbn; lia]).
  destruct (dm_fromobject_gen_ok_eq CStrided false (flat_fromobject_eq eqv CStrided) (class_ok_eq eqv CStrided) (is_class CStrided) h src a None None sh g
              (flat_fo_spec_eq CStrided) Hr Hp (dm_args_default _ Hn))
    as (d & h' & E1 & E2 & E3 & E4 & E5 & E6 & E7); [exact I|].
  eexists _, h'. split; [exact E1|]. split; [reflexivity|]. split; [exact E3|]. split; [exact E4|].
  split; [exact E5|]. split; [exact E6|]. split; [exact I|]. split.
  - apply Forall_forall. intros x Hx. now apply repeat_spec in Hx.
  - destruct d; try contradiction. exact I.
Qed.

Lemma dm_fromobject_ok_eq c h src a dimensions partitioning sh g :
  reads h src a sh g -> positive sh ->
  dm_args (dm_is_buffer c) (zlen sh) dimensions partitioning ->
  let rdims := dm_rdims (dm_is_buffer c) (zlen sh) dimensions partitioning in
  dm_class_ok_eq eqv c (group_shape sh rdims) (fo_get_unspec src a)
    (fun r => fo_value_eq eqv src a g (promoted sh rdims r)) ->
  exists d h', dm_fromobject_eq eqv h src a dimensions partitioning c
    = Ok (SDM sh rdims (map (gather sh) rdims) (group_strides sh rdims) (repeat 0 (length rdims)) d, h')
    /\ shape_of d = group_shape sh rdims
    /\ unspecified_of d = fo_get_unspec src a
    /\ extends h h'
    /\ fresh h d
    /\ repr h' (SDM sh rdims (map (gather sh) rdims) (group_strides sh rdims) (repeat 0 (length rdims)) d)
            (fo_read c src a g)
    /\ is_class c d /\ zero_off d.
Proof.
  intros Hr Hp Ha rdims HC. unfold dm_fromobject_eq. unfold rdims in *.
  assert (F : forall c', c' <> CDM -> forall d, is_class c' d -> zero_off d).
  { intros c' Hc d Hd. destruct c', d; try contradiction; try congruence; exact I. }
  assert (G : c <> CDM -> dm_fromobject_eq eqv h src a dimensions partitioning c
    = dm_fromobject_gen (dm_is_buffer c) (flat_fromobject_eq eqv c) h src a dimensions partitioning).
  { intros Hc. destruct c; try congruence; reflexivity. }
  assert (D : c = CDM \/ c <> CDM) by (destruct c; (left; reflexivity) || (right; discriminate)).
  destruct D as [->|Hc].
  - destruct (dm_fromobject_gen_ok_eq CDM false _ (dm_class_ok_eq eqv CDM) _ h src a dimensions partitioning sh g dm_fo_spec_eq Hr Hp Ha HC)
      as (d & h' & E1 & E2 & E3 & E4 & E5 & E6 & E7 & E8).
    exists d, h'. auto 10.
  - fold (dm_fromobject_eq eqv h src a dimensions partitioning c). rewrite G by assumption.
    assert (HC' : class_ok_eq eqv c (group_shape sh (dm_rdims (dm_is_buffer c) (zlen sh) dimensions partitioning)) (fo_get_unspec src a)
                   (fun r => fo_value_eq eqv src a g (promoted sh (dm_rdims (dm_is_buffer c) (zlen sh) dimensions partitioning) r)))
      by (destruct c; try congruence; exact HC).
    destruct (dm_fromobject_gen_ok_eq c (dm_is_buffer c) _ (class_ok_eq eqv c) _ h src a dimensions partitioning sh g (flat_fo_spec_eq c) Hr Hp Ha HC')
      as (d & h' & E1 & E2 & E3 & E4 & E5 & E6 & E7).
    exists d, h'. split; [exact E1|]. split; [exact E2|]. split; [exact E3|]. split; [exact E4|]. split; [exact E5|].
    split; [exact E6|]. split; [exact E7|]. exact (F c Hc d E7).
Qed.

End DM.

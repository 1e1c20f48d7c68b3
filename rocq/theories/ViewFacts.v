(** Slices of Strided arrays. *)
From Coq Require Import Sorting.Sorted Permutation ZifyBool.
From Verif Require Import Py SliceTools Basics Storage Spec SliceFacts IndexFacts
  CompressFacts ReduceFacts SolveFacts Repr ReprFacts.

(** * Element indices and slices *)
Lemma element_n_shape nix sh : normal_index nix sh ->
  (is_element_index nix sh = true <-> n_shape nix sh = []).
Proof.
  intros H. unfold is_element_index.
  replace (zlen nix =? zlen sh) with true.
  2:{ symmetry. unfold zlen. apply Z.eqb_eq. f_equal. induction H; cbn; congruence. }
  cbn [andb]. induction H as [|i n nix sh Hi H IH]; cbn [forallb n_shape]; [tauto|].
  destruct i; cbn [is_int_item andb]; [exact IH| |]; split; discriminate.
Qed.

Lemma element_source nix sh : normal_index nix sh -> n_shape nix sh = [] ->
  int_items nix = n_source nix sh [].
Proof.
  intros H. induction H as [|i n nix sh Hi H IH]; cbn [n_shape int_items n_source]; [reflexivity|].
  destruct i; intros E; [|discriminate|discriminate]. now rewrite IH.
Qed.

(** The offset of a slice is the position of an element. *)
Fixpoint n_origin (ix : list nind) (shape : list Z) : list Z :=
  match ix, shape with
  | NInt z :: r, _ :: sh => z :: n_origin r sh
  | NSl s :: r, n :: sh => r_start s mod n :: n_origin r sh
  | NNone :: r, _ :: sh => 0 :: n_origin r sh
  | _, _ => []
  end.

Lemma n_origin_in_box ix sh : positive sh -> normal_index ix sh -> in_box (n_origin ix sh) sh.
Proof.
  intros Hp H. induction H as [|i n ix sh Hi H IH]; [constructor|].
  inversion Hp as [|? ? Hn Hp']; subst. cbn [n_origin].
  destruct i as [z|r|]; constructor; try (now apply IH).
  - exact Hi.
  - apply Z.mod_pos_bound. lia.
  - lia.
Qed.

Lemma n_offset_origin ix sh : normal_index ix sh -> forall st, length st = length sh ->
  n_offset ix sh st = zdot (n_origin ix sh) st.
Proof.
  intros H. induction H as [|i n ix sh Hi H IH]; intros [|a st] Hl; cbn in Hl; try lia; [reflexivity|].
  cbn [n_offset n_origin]. destruct i; cbn [zdot]; rewrite IH by lia; lia.
Qed.

Lemma reduced_window a b n : 0 <= a < b -> b <= n ->
  reduced (Sl (Some a) (Some b) None) n = RSl a b 1.
Proof.
  intros Ha Hb. unfold reduced. cbn [sl_start sl_stop sl_step].
  replace (0 <? 1) with true by lia.
  replace (a <? - n) with false by lia. replace (a <? 0) with false by lia.
  replace (n <? a) with false by lia.
  replace (n <? b) with false by lia. replace (b <? - n) with false by lia.
  replace (b <? 0) with false by lia. replace (n <? 1) with false by lia.
  replace ((b - a) * 1 <=? 0) with false by lia. reflexivity.
Qed.

Lemma buf_slice_tail h b l off : nth_error h (baddr b) = Some l ->
  0 <= boff b + off < boff b + bsize b -> boff b + bsize b <= zlen l ->
  buf_slice h b (Sl (Some off) None None)
  = Ok (Buf (bsize b - off) (boff b + off) (baddr b) (bunspec b)).
Proof.
  intros Hl Ho He. unfold buf_slice. rewrite (cell_ok _ _ _ Hl). cbn [bind sl_start sl_stop sl_step].
  replace (boff b + off <? 0) with false by lia.
  replace (zlen l <=? boff b + off) with false by lia. cbn [orb].
  replace (boff b + bsize b <=? 0) with false by lia.
  replace (zlen l <? boff b + bsize b) with false by lia. cbn [orb].
  rewrite reduced_window by lia. cbn [r_step r_start r_stop]. cbn [Z.eqb Pos.eqb negb].
  unfold mk_buffer. rewrite (cell_ok _ _ _ Hl). cbn [bind]. unfold assert_.
  replace (boff b + off + (boff b + bsize b - (boff b + off)) <=? zlen l) with true by lia.
  cbn [bind]. do 2 f_equal. lia.
Qed.

Lemma strided_slice h t l ix : nth_error h (baddr (sdata t)) = Some l -> strided_ok t l ->
  positive (sshape t) -> ok_index ix (sshape t) -> slice_shape ix (sshape t) <> [] ->
  exists t', strided_getitem h t ix = Ok (ISto (SStrided t'))
    /\ sshape t' = slice_shape ix (sshape t)
    /\ baddr (sdata t') = baddr (sdata t) /\ bunspec (sdata t') = bunspec (sdata t)
    /\ strided_ok t' l
    /\ (forall j, in_box j (sshape t') ->
          in_box (source_index ix (sshape t) j) (sshape t)
          /\ spos t' j = spos t (source_index ix (sshape t) j)).
Proof.
  intros Hl Ht Hp Hok Hne.
  set (sh := sshape t) in *. set (st := sstrides t) in *.
  pose proof Hok as [Hitems _].
  set (nix := norm_items (index_items ix) sh).
  assert (Hn : normal_index nix sh) by now apply norm_items_normal.
  assert (Es : n_shape nix sh = slice_shape ix sh) by now apply norm_items_shape.
  assert (Hst : length st = length sh) by apply (so_strides _ _ Ht).
  unfold strided_getitem. fold sh st. rewrite normalize_index_ok by assumption. fold nix. cbn [bind].
  destruct (is_element_index nix sh) eqn:Ee.
  { apply element_n_shape in Ee; [|assumption]. congruence. }
  rewrite index_strided_ok by assumption. cbn [bind]. rewrite Z.add_0_l, Es.
  set (off := n_offset nix sh st).
  assert (Hoff : 0 <= boff (sdata t) + off < boff (sdata t) + bsize (sdata t)).
  { unfold off. rewrite n_offset_origin by assumption.
    apply (so_pos _ _ Ht (n_origin nix sh)). now apply n_origin_in_box. }
  rewrite (buf_slice_tail h (sdata t) l off Hl Hoff (so_end _ _ Ht)). cbn [bind].
  unfold mk_strided. assert (Hls : length (n_strides nix st) = length (slice_shape ix sh)).
  { rewrite <- Es. now apply n_strides_length. }
  unfold assert_. replace (zlen (slice_shape ix sh) =? zlen (n_strides nix st)) with true
    by (unfold zlen; lia). cbn [bind].
  eexists. split; [reflexivity|]. cbn [sshape sdata baddr bunspec].
  split; [reflexivity|]. split; [reflexivity|]. split; [reflexivity|].
  assert (Hj : forall j, in_box j (slice_shape ix sh) ->
            in_box (source_index ix sh j) sh
            /\ boff (sdata t) + off + zdot j (n_strides nix st)
               = boff (sdata t) + zdot (source_index ix sh j) st).
  { intros j Hj. assert (Eq : source_index ix sh j = n_source nix sh j).
    { symmetry. now apply norm_items_source. }
    rewrite Eq. rewrite <- Es in Hj. split; [now apply n_source_in_box|].
    rewrite <- (n_offset_dot nix sh st j) by assumption. unfold off. lia. }
  split.
  - constructor; cbn [sshape sstrides sdata boff bsize]; try assumption; try lia.
    + rewrite <- Es. now apply n_shape_nonneg.
    + pose proof (so_end _ _ Ht). lia.
    + intros j Hjb. destruct (Hj j Hjb) as [Hb E]. unfold spos. cbn [sdata boff sstrides].
      rewrite E. pose proof (so_pos _ _ Ht _ Hb) as Hpos. unfold spos in Hpos. fold st in Hpos. lia.
    + intros i j Hib Hjb. unfold spos. cbn [sdata boff sstrides].
      destruct (Hj i Hib) as [Hbi Ei]. destruct (Hj j Hjb) as [Hbj Ej]. rewrite Ei, Ej. intros E.
      assert (Eq : source_index ix sh i = source_index ix sh j).
      { apply (so_inj _ _ Ht); auto. }
      unfold source_index in Eq.
      rewrite <- !norm_items_source in Eq by assumption. fold nix in Eq.
      rewrite <- Es in Hib, Hjb. now apply (n_source_inj nix sh).
  - intros j Hjb. destruct (Hj j Hjb) as [Hb E]. split; [exact Hb|]. exact E.
Qed.

Lemma strided_slice_element h t l ix : nth_error h (baddr (sdata t)) = Some l -> strided_ok t l ->
  positive (sshape t) -> ok_index ix (sshape t) -> slice_shape ix (sshape t) = [] ->
  in_box (source_index ix (sshape t) []) (sshape t)
  /\ strided_getitem h t ix
     = Ok (IVal (nth (Z.to_nat (spos t (source_index ix (sshape t) []))) l VNone)).
Proof.
  intros Hl Ht Hp Hok Hnil.
  set (sh := sshape t) in *.
  pose proof Hok as [Hitems _].
  set (nix := norm_items (index_items ix) sh).
  assert (Hn : normal_index nix sh) by now apply norm_items_normal.
  assert (Es : n_shape nix sh = slice_shape ix sh) by now apply norm_items_shape.
  assert (Eq : source_index ix sh [] = n_source nix sh []).
  { symmetry. apply norm_items_source; auto. unfold slice_shape in Hnil. rewrite Hnil. constructor. }
  assert (Hb : in_box (source_index ix sh []) sh).
  { rewrite Eq. apply n_source_in_box; auto. rewrite Es, Hnil. constructor. }
  split; [exact Hb|].
  unfold strided_getitem. fold sh. rewrite normalize_index_ok by assumption. fold nix. cbn [bind].
  replace (is_element_index nix sh) with true
    by (symmetry; apply element_n_shape; [assumption|congruence]).
  rewrite element_source with (sh := sh) by (auto; congruence). rewrite <- Eq.
  rewrite get_position_ok; [|now apply in_box_len|apply (so_strides _ _ Ht)]. cbn [bind].
  unfold buf_get. rewrite (cell_ok _ _ _ Hl). cbn [bind].
  pose proof (so_pos _ _ Ht _ Hb) as Hpos. pose proof (so_end _ _ Ht).
  rewrite (pyget_ok l _ VNone); [reflexivity|]. unfold spos in Hpos. lia.
Qed.

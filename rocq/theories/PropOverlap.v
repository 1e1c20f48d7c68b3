(** C45 for the other classes: s[i1] = s[i2] for sparse arrays and for DM. *)
From Coq Require Import Sorting.Sorted Permutation ZifyBool.
From Verif Require Import Py SliceTools Basics Storage Spec SliceFacts IndexFacts
  CompressFacts ReduceFacts SolverFacts SolveFacts Repr ReprFacts ViewFacts BuildFacts SparseFacts
  ConvFacts FromFacts DMFacts ReadFacts MapFacts ChainFacts WriteFacts EffectFacts PureFacts AliasFacts
  PropRead PropWrite PropFail PropIndex PropReach RefineFacts.

(** Slices of sparse arrays are copies, so the property holds for every pair of
    indices; only stored elements can be assigned (C34). *)
Theorem C45_sparse_partial : forall h s ix1 ix2 t h1,
  valid h s -> is_sparse s -> positive (shape_of s) ->
  ok_index ix1 (shape_of s) -> ok_index ix2 (shape_of s) ->
  slice_shape ix1 (shape_of s) = slice_shape ix2 (shape_of s) -> slice_shape ix1 (shape_of s) <> [] ->
  getitem h s ix2 = Ok (ISto t, h1) ->
  exists h', setitem h1 s ix1 (SrcSto t) = (h', Ok tt) /\ valid h' s
    /\ (forall j, in_box j (slice_shape ix1 (shape_of s)) -> stored h s (source_index ix1 (shape_of s) j) ->
          get_elem h' s (source_index ix1 (shape_of s) j) = get_elem h s (source_index ix2 (shape_of s) j))
    /\ (forall i, in_box i (shape_of s) -> ~ (hit ix1 (shape_of s) i /\ stored h s i) ->
          get_elem h' s i = get_elem h s i).
Proof.
  intros h s ix1 ix2 t h1 [f Hr] Hs Hp Hok1 Hok2 Hsh Hne Hg.
  assert (Hpl : plain s) by (destruct s; try contradiction; exact I).
  destruct (slice_plain s h f ix2 Hr Hpl Hp Hok2 ltac:(congruence)) as (t' & h1' & E1 & E2 & E3 & E4 & E5 & E6 & _ & E8).
  rewrite Hg in E1. injection E1 as <- <-. destruct (E8 Hs) as [_ Hf].
  pose proof (repr_extends h h1 s f E4 Hr) as Hr1.
  destruct (sparse_entries h s f Hr Hs) as (E & HE & _).
  assert (HE1 : entries h1 s E).
  { eapply entries_frame; [|exact HE]. intros a Ha. pose proof (repr_addrs h s f a Hr Ha) as Hlt.
    destruct (nth_error h a) as [l|] eqn:El; [now apply (extends_cell h)|]. apply nth_error_None in El. lia. }
  assert (Hst : forall i, stored h1 s i <-> stored h s i).
  { intros i. now rewrite (stored_sparse h1 s E i HE1 Hp), (stored_sparse h s E i HE Hp). }
  assert (Hsep : separate h1 (SrcSto t) (data_addr s)).
  { split; [eexists; exact E5|]. intros Hin. apply Hf in Hin.
    pose proof (repr_addrs h s f (data_addr s) Hr (or_introl eq_refl)). lia. }
  assert (Hv : forall j, in_box j (slice_shape ix1 (shape_of s)) ->
     value_at h1 (SrcSto t) j (f (source_index ix2 (shape_of s) j))).
  { intros j Hj. cbn [value_at]. rewrite E2, <- Hsh. split; [exact Hj|]. split.
    - intros ->. inversion Hj; congruence.
    - apply (repr_get h1 t _ j E5). now rewrite E2, <- Hsh. }
  destruct (C33_slice_assignment_partial h1 s ix1 (SrcSto t) (ex_intro _ f Hr1)) as (h' & F1 & F2 & F3 & F4 & _); auto.
  { destruct s; try contradiction; exact I. }
  { intros j Hj _. eauto. }
  exists h'. split; [exact F1|]. split; [exact F2|]. split.
  - intros j Hj Hin. rewrite (F3 j _ Hj (proj2 (Hst _) Hin) (Hv j Hj)). symmetry. apply (repr_get h s f _ Hr).
    apply source_index_in_box; auto. now rewrite <- Hsh.
  - intros i Hi Hn. rewrite F4; [|exact Hi|rewrite Hst; exact Hn].
    now rewrite (repr_get h1 s f i Hr1 Hi), (repr_get h s f i Hr Hi).
Qed.
Print Assumptions C45_sparse_partial.

(** s = X.fromobject([1, 2, 3]); s[:] = s[::-1] is a reversal. *)
Example C45_sparse_case : forall c, In c [CCOO; CFlatCOO] ->
  ('(s, h) <- fromobject c [] (SrcSeq list_3) fo_default ;;
   '(t, h1) <- getitems h s [XItem (ISlice (Sl None None (Some (-1))))] ;;
   let '(h2, r) := setitem h1 s everything (SrcSto t) in
   _ <- r ;; e <- elements h2 s ;; Ok (map snd e))
  = Ok [VInt 3; VInt 2; VInt 1].
Proof. intros c [<-|[<-|[]]]; vm_compute; reflexivity. Qed.

(** * DM over Strided or Buffer *)

Lemma dm_overlap_loop d t l0 h0 : elem_data d -> dense_based t -> data_addr t = data_addr d ->
  nth_error h0 (data_addr d) = Some l0 -> (exists g, repr h0 d g) -> (exists g, repr h0 t g) ->
  forall L l, length l = length l0 ->
  NoDup (map snd L) ->
  Forall (fun e => fst e <> [] /\ in_box (fst e) (shape_of t) /\ in_box (snd e) (shape_of d)) L ->
  (forall L1 vi p L2, L = L1 ++ (vi, p) :: L2 -> forall vi' p', In (vi', p') L1 -> spot t vi <> spot d p') ->
  exists l', write_loop (fun h r v => setitem h d (int_tuple r) (SrcSeq v)) (SrcSto t) L (set_nth (data_addr d) l h0)
             = (set_nth (data_addr d) l' h0, Ok tt)
    /\ length l' = length l0
    /\ (forall vi p, In (vi, p) L -> nth (Z.to_nat (spot d p)) l' VNone = nth (Z.to_nat (spot t vi)) l VNone)
    /\ (forall q, 0 <= q -> (forall p, In p (map snd L) -> q <> spot d p) ->
          nth (Z.to_nat q) l' VNone = nth (Z.to_nat q) l VNone).
Proof.
  intros Hd Ht Ha Hl0 [gd Hgd] [gt Hgt]. assert (Hdb : dense_based d) by (destruct d; try contradiction; exact I).
  assert (Hc : forall l, nth_error (set_nth (data_addr d) l h0) (data_addr d) = Some l).
  { intros l. apply set_nth_error_same, nth_error_Some. congruence. }
  induction L as [|[vi p] L IH]; intros l Hlen Hnd Hb Hord; cbn [write_loop].
  - exists l. repeat split; auto. intros vi p [].
  - inversion Hnd as [|? ? N1 N2]; subst. inversion Hb as [|? ? (B0 & B1 & B2) Hb']; subst. cbn [fst snd] in *.
    pose proof (dense_relist d h0 _ gd l0 l Hdb Hgd Hl0 (Hc l) Hlen) as Rd.
    assert (Rt : repr (set_nth (data_addr d) l h0) t (fun i => nth (Z.to_nat (spot t i)) l VNone)).
    { apply (dense_relist t h0 _ gt l0 l Ht Hgt); rewrite ?Ha; auto. }
    assert (Hv : get_value (set_nth (data_addr d) l h0) (SrcSto t) vi = Ok (nth (Z.to_nat (spot t vi)) l VNone)).
    { cbn [get_value]. destruct vi; [congruence|]. now apply (repr_get _ _ _ _ Rt). }
    rewrite Hv, (elem_write_spot d _ _ l p _ Hd Rd (Hc l) B2), set_nth_twice.
    destruct (repr_spot d _ _ Hdb Rd) as (l1 & Hl1 & Hs). rewrite Hc in Hl1. injection Hl1 as <-.
    destruct (Hs p B2) as [Hrg _].
    set (x := nth (Z.to_nat (spot t vi)) l VNone) in *. set (l1 := set_nth (Z.to_nat (spot d p)) x l).
    assert (Hlen1 : length l1 = length l0) by (unfold l1; now rewrite set_nth_length).
    assert (Hn1 : forall q, 0 <= q -> q <> spot d p -> nth (Z.to_nat q) l1 VNone = nth (Z.to_nat q) l VNone).
    { intros q Hq Hne. unfold l1. rewrite set_nth_nth by (unfold zlen in Hrg; lia).
      replace (Nat.eqb _ _) with false; [reflexivity|]. symmetry. apply Nat.eqb_neq. lia. }
    destruct (IH l1 Hlen1 N2 Hb') as (l' & F1 & F2 & F3 & F4).
    { intros L1 v2 p2 L2 EL v3 p3 Hin. apply (Hord ((vi, p) :: L1) v2 p2 L2) with (vi' := v3); [now rewrite EL|now right]. }
    exists l'. split; [exact F1|]. split; [exact F2|]. split.
    + intros v2 p2 [E|Hin].
      * injection E as <- <-. rewrite F4; [|lia|].
        -- unfold l1. rewrite set_nth_nth by (unfold zlen in Hrg; lia). now rewrite Nat.eqb_refl.
        -- intros p3 H3 E. apply N1. rewrite Forall_forall in Hb'.
           assert (B3 : in_box p3 (shape_of d)).
           { apply in_map_iff in H3. destruct H3 as (e & <- & He). now apply Hb'. }
           now rewrite (spot_inj d _ _ Hdb Rd p p3 B2 B3 E).
      * rewrite (F3 v2 p2 Hin). rewrite Forall_forall in Hb'. destruct (Hb' _ Hin) as (_ & Bv & _). cbn [fst] in Bv.
        destruct (repr_spot t _ _ Ht Rt) as (lt & Hlt & Hst). apply Hn1; [apply (Hst v2 Bv)|].
        apply in_split in Hin. destruct Hin as (L1 & L2 & ->).
        apply (Hord ((vi, p) :: L1) v2 p2 L2 eq_refl vi). now left.
    + intros q Hq Hout. rewrite F4; [|exact Hq|].
      * apply Hn1; [exact Hq|]. apply Hout. now left.
      * intros p3 H3. apply Hout. now right.
Qed.

(** The condition of C45_overlapping_partial in the order in which DM visits the
    elements. *)
Theorem C45_dm_partial : forall h0 h s ix1 ix2 t h1,
  built_dm h0 h s -> slice_writes s ->
  ok_index ix1 (shape_of s) -> ok_index ix2 (shape_of s) ->
  slice_shape ix1 (shape_of s) = slice_shape ix2 (shape_of s) -> slice_shape ix1 (shape_of s) <> [] ->
  getitem h s ix2 = Ok (ISto t, h1) ->
  (forall j k, in_box j (slice_shape ix1 (shape_of s)) -> in_box k (slice_shape ix1 (shape_of s)) ->
     row_major_lt (source_index ix1 (shape_of s) j) (source_index ix1 (shape_of s) k) ->
     source_index ix1 (shape_of s) j <> source_index ix2 (shape_of s) k) ->
  exists h', setitem h1 s ix1 (SrcSto t) = (h', Ok tt)
    /\ valid h' s
    /\ (forall j, in_box j (slice_shape ix1 (shape_of s)) ->
          get_elem h' s (source_index ix1 (shape_of s) j) = get_elem h s (source_index ix2 (shape_of s) j))
    /\ (forall i, in_box i (shape_of s) -> ~ hit ix1 (shape_of s) i -> get_elem h' s i = get_elem h s i).
Proof.
  intros h0 h s ix1 ix2 t h1 Hb Hw Hok1 Hok2 Hsh Hne Hg Hord.
  destruct (built_dm_ok h0 h s Hb) as (f & Hr & Hz & Hdm & Hp).
  destruct s as [| | | | | |sh rd rsh rs ro d]; try contradiction. cbn [shape_of] in *.
  assert (He : elem_data d) by (destruct d; try contradiction; exact I).
  set (s := SDM sh rd rsh rs ro d) in *.
  assert (Hds : dense_based s) by (destruct d; try contradiction; exact I).
  assert (Hne2 : slice_shape ix2 sh <> []) by congruence.
  destruct (getitem_slice_full s h f ix2 Hr Hp Hok2 Hne2 (safe_zero s h f ix2 Hr Hz Hp Hok2 Hne2 (is_dm_not_buffer s Hdm)))
    as (t' & h1' & E1 & E2 & E3 & E4 & E5 & E6 & _ & E8).
  rewrite Hg in E1. injection E1 as <- <-. destruct (E6 Hds) as (-> & Ead & Hdt). specialize (E8 Hds).
  pose proof Hr as (g & Hgd & Hm & Hf). cbn [shape_of s] in E2, E8.
  assert (Ha : data_addr t = data_addr d).
  { pose proof (f_equal (hd 0%nat) Ead) as X. exact X. }
  destruct (dm_positions _ _ _ _ _ _ ix1 Hm Hp Hok1 Hne) as (L & EL & HL & Hnd & HbL).
  assert (Hsrc1 : forall j, in_box j (slice_shape ix1 sh) -> in_box (source_index ix1 sh j) sh)
    by (intros j Hj; now apply source_index_in_box).
  assert (Hsrc2 : forall j, in_box j (slice_shape ix1 sh) -> in_box (source_index ix2 sh j) sh)
    by (intros j Hj; apply source_index_in_box; auto; now rewrite <- Hsh).
  destruct (repr_spot s h f Hds Hr) as (l & Hl & Hspot). cbn [data_addr s] in Hl.
  assert (So : StronglySorted (fun e e' => earlier s ix1 (fst e) (fst e')) L).
  { set (R := fun p q => forall i k, in_box i sh -> in_box k sh -> p = dm_index rd rs ro i -> q = dm_index rd rs ro k -> row_major_lt i k).
    assert (So : StronglySorted R (map snd L)).
    { destruct (normalize_index ix1 sh) as [nix|]; cbn [bind] in EL; [|discriminate].
      destruct (index_strided _ _ _ _) as [[[sh' st'] off']|]; cbn [bind] in EL; [|discriminate].
      apply (slice_iad_sorted R _ _ _ _ _ _ _ (dm_iad_ok _ _ _ _ _ _ Hm) EL).
      rewrite map_map. cbn [snd]. apply (sorted_map _ row_major_lt); [|apply cart_sorted].
      intros i0 k0 Hi Hk0 Hlt i' k' Hi' Hk' Ei Ek'. apply In_cart in Hi, Hk0.
      apply (dm_inj _ _ _ _ _ _ Hm) in Ei, Ek'; auto. now subst. }
    apply sorted_unmap in So. revert So. apply sorted_impl. intros [j1 p1] [k1 q1] H1 H2 Hlt. cbn [fst snd] in *.
    apply HL in H1, H2. destruct H1 as [Bj ->]. destruct H2 as [Bk ->]. unfold earlier, s. cbn [shape_of].
    apply Hlt; auto. }
  destruct (dm_overlap_loop d t l h He Hdt Ha Hl (ex_intro _ g Hgd) (ex_intro _ _ E5) L l eq_refl Hnd) as (l' & F1 & F2 & F3 & F4).
  - apply Forall_forall. intros [j p] Hin. cbn [fst snd]. rewrite Forall_forall in HbL.
    pose proof (HbL _ Hin) as B. apply HL in Hin. destruct Hin as [Hj _].
    split; [intros ->; inversion Hj; congruence|]. split; [now rewrite E2, <- Hsh|exact B].
  - intros L1 vi p L2 EL' vi' p' Hin Heq. rewrite EL' in So.
    pose proof (sorted_before _ _ _ _ _ So Hin) as B. unfold earlier, s in B. cbn [fst shape_of] in B.
    assert (I1 : In (vi, p) L) by (rewrite EL'; apply in_or_app; right; now left).
    assert (I2 : In (vi', p') L) by (rewrite EL'; apply in_or_app; now left).
    apply HL in I1, I2. destruct I1 as [Bv Pv]. destruct I2 as [Bv' Pv']. subst p'.
    rewrite E8 in Heq by now rewrite <- Hsh.
    change (spot d (dm_index rd rs ro (source_index ix1 sh vi'))) with (spot s (source_index ix1 sh vi')) in Heq.
    apply (spot_inj s h f Hds Hr) in Heq; cbn [shape_of s]; auto. apply (Hord vi' vi Bv' Bv B). now symmetry.
  - rewrite set_nth_same in F1 by exact Hl.
    assert (Hc : nth_error (set_nth (data_addr d) l' h) (data_addr d) = Some l').
    { apply set_nth_error_same, nth_error_Some. congruence. }
    pose proof (dense_relist s h _ f l l' Hds Hr Hl Hc F2) as Hr'.
    eexists. split; [unfold s; rewrite (dm_setitem_run _ _ _ _ _ _ _ _ _ _ EL); exact F1|].
    split; [eexists; exact Hr'|]. split.
    + intros j Hj. rewrite (repr_get _ s _ _ Hr' (Hsrc1 j Hj)), (repr_get _ s _ _ Hr (Hsrc2 j Hj)). f_equal.
      cbn [spot s]. rewrite (F3 j); [|now apply HL]. rewrite E8 by now rewrite <- Hsh.
      symmetry. apply (Hspot _ (Hsrc2 j Hj)).
    + intros i Hi Hn. rewrite (repr_get _ s _ _ Hr' Hi), (repr_get _ s _ _ Hr Hi). f_equal.
      destruct (Hspot i Hi) as [Hi1 Hi2]. rewrite Hi2. apply F4; [lia|]. intros p Hin Eq.
      apply in_map_iff in Hin. destruct Hin as ([j p'] & Ep & Hin). cbn in Ep. subst p'. apply HL in Hin. destruct Hin as [Hj ->].
      change (spot d (dm_index rd rs ro (source_index ix1 sh j))) with (spot s (source_index ix1 sh j)) in Eq.
      apply (spot_inj s h f Hds Hr) in Eq; cbn [shape_of s]; auto. apply Hn. exists j. auto.
Qed.
Print Assumptions C45_dm_partial.

(** s = DM.fromobject([[1, 2], [3, 4]]); s[:, 0] = s[:, 1]. *)
Example C45_dm_case :
  ('(s, h) <- dm_fromobject [] (SrcSeq nested_2x2) fo_default None None CStrided ;;
   '(t, h1) <- getitems h s [XTuple [INone; IInt 1]] ;;
   let '(h2, r) := setitem h1 s (XTuple [INone; IInt 0]) (SrcSto t) in
   _ <- r ;; mapM (get_elem h2 s) (cart [2; 2]))
  = Ok [VInt 2; VInt 2; VInt 4; VInt 4].
Proof. vm_compute. reflexivity. Qed.

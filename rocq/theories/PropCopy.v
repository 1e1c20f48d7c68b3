(** C45, exactly: for which pairs of slices s[i1] = s[i2] gives what was there. *)
From Coq Require Import Sorting.Sorted Permutation ZifyBool.
From Verif Require Import Py SliceTools Basics Storage Spec SliceFacts IndexFacts
  CompressFacts ReduceFacts SolverFacts SolveFacts Repr ReprFacts ViewFacts BuildFacts SparseFacts
  ConvFacts FromFacts DMFacts ReadFacts MapFacts ChainFacts WriteFacts EffectFacts PureFacts AliasFacts
  PropRead PropWrite PropFail PropIndex PropReach RefineFacts PropOverlap.

(** * A loop of copies within one list *)

Fixpoint copies (L : list (Z * Z)) (l : list pyval) : list pyval :=
  match L with
  | [] => l
  | (r, w) :: L => copies L (set_nth (Z.to_nat w) (nth (Z.to_nat r) l VNone) l)
  end.

Definition cells_ok (n : nat) (L : list (Z * Z)) : Prop :=
  Forall (fun e => 0 <= fst e < Z.of_nat n /\ 0 <= snd e < Z.of_nat n) L.

Lemma copies_length L : forall l, length (copies L l) = length l.
Proof. induction L as [|[r w] L IH]; intros l; cbn [copies]; [reflexivity|]. now rewrite IH, set_nth_length. Qed.

Lemma copies_app L1 : forall L2 l, copies (L1 ++ L2) l = copies L2 (copies L1 l).
Proof. induction L1 as [|[r w] L IH]; intros L2 l; cbn [copies app]; [reflexivity|]. apply IH. Qed.

Lemma nth_set_z q w v (l : list pyval) : 0 <= q -> 0 <= w < Z.of_nat (length l) ->
  nth (Z.to_nat q) (set_nth (Z.to_nat w) v l) VNone = if q =? w then v else nth (Z.to_nat q) l VNone.
Proof.
  intros Hq Hw. rewrite set_nth_nth by lia. destruct (Z.eqb_spec q w) as [->|Hne]; [now rewrite Nat.eqb_refl|].
  replace (Nat.eqb _ _) with false; [reflexivity|]. symmetry. apply Nat.eqb_neq. lia.
Qed.

(** What is never written stays. *)
Lemma copies_out L : forall l q, cells_ok (length l) L -> 0 <= q -> ~ In q (map snd L) ->
  nth (Z.to_nat q) (copies L l) VNone = nth (Z.to_nat q) l VNone.
Proof.
  induction L as [|[r w] L IH]; intros l q H Hq Hn; cbn [copies]; [reflexivity|].
  inversion H as [|? ? [H1 H2] H3]; subst. cbn [map fst snd In] in *.
  rewrite IH; [|now rewrite set_nth_length|exact Hq|tauto].
  rewrite nth_set_z by auto. destruct (Z.eqb_spec q w); [|reflexivity]. exfalso. apply Hn. auto.
Qed.

(** Every cell holds the first content of the cell itself or of a cell that has been read. *)
Lemma copies_origin L l q : cells_ok (length l) L -> 0 <= q ->
  (In q (map snd L) -> exists x, In x (map fst L) /\ nth (Z.to_nat q) (copies L l) VNone = nth (Z.to_nat x) l VNone)
  /\ (~ In q (map snd L) -> nth (Z.to_nat q) (copies L l) VNone = nth (Z.to_nat q) l VNone).
Proof.
  intros H Hq. split; [|now apply copies_out]. revert q Hq H.
  induction L as [|[r w] L IH] using rev_ind; intros q Hq H Hin; [destruct Hin|].
  unfold cells_ok in H. apply Forall_app in H. destruct H as [H H0]. inversion H0 as [|? ? [Hr Hw] _]; subst.
  cbn [fst snd] in *. rewrite !map_app in *. cbn [map fst snd] in *. rewrite copies_app. cbn [copies].
  assert (G : forall c, 0 <= c -> exists x, (In x (map fst L) \/ x = c)
             /\ nth (Z.to_nat c) (copies L l) VNone = nth (Z.to_nat x) l VNone).
  { intros c Hc. destruct (in_dec Z.eq_dec c (map snd L)) as [Hi|Hi].
    - destruct (IH c Hc H Hi) as (x & X1 & X2). eauto.
    - exists c. split; [now right|]. now apply copies_out. }
  rewrite nth_set_z by (rewrite ?copies_length; auto). destruct (Z.eqb_spec q w) as [->|Hne].
  - destruct (G r ltac:(lia)) as (x & X1 & X2). exists x. split; [|exact X2]. apply in_or_app.
    destruct X1 as [X1| ->]; [now left|right; now left].
  - apply in_app_or in Hin. destruct Hin as [Hin|[->|[]]]; [|congruence].
    destruct (IH q Hq H Hin) as (x & X1 & X2). exists x. split; [apply in_or_app; now left|exact X2].
Qed.

Lemma copies_right l L1 r w L2 : cells_ok (length l) (L1 ++ (r, w) :: L2) -> NoDup (map snd (L1 ++ (r, w) :: L2)) ->
  ~ In r (map snd L1) -> nth (Z.to_nat w) (copies (L1 ++ (r, w) :: L2) l) VNone = nth (Z.to_nat r) l VNone.
Proof.
  intros H Hnd Hord. unfold cells_ok in H. apply Forall_app in H. destruct H as [H1 H2].
  inversion H2 as [|? ? [Hr Hw] H3]; subst. cbn [fst snd] in *.
  rewrite map_app in Hnd. cbn [map snd] in Hnd. apply NoDup_remove_2 in Hnd.
  rewrite copies_app. cbn [copies]. rewrite copies_out.
  - rewrite nth_set_z by (rewrite ?copies_length; lia). rewrite Z.eqb_refl. apply copies_out; [exact H1|lia|exact Hord].
  - now rewrite set_nth_length, copies_length.
  - lia.
  - intros Hi. apply Hnd. apply in_or_app. now right.
Qed.

Lemma copies_wrong L l : cells_ok (length l) L -> NoDup (map fst L) -> NoDup (map snd L) ->
  (forall x y, In x (map fst L) -> In y (map fst L) -> x <> y -> nth (Z.to_nat x) l VNone <> nth (Z.to_nat y) l VNone) ->
  forall L1 r w L2, L = L1 ++ (r, w) :: L2 -> In r (map snd L1) ->
  nth (Z.to_nat w) (copies L l) VNone <> nth (Z.to_nat r) l VNone.
Proof.
  intros H Hf Hnd Hd L1 r w L2 -> Hin. unfold cells_ok in H. apply Forall_app in H. destruct H as [H1 H2].
  inversion H2 as [|? ? [Hr Hw] H3]; subst. cbn [fst snd] in *.
  rewrite map_app in Hnd. cbn [map snd] in Hnd. apply NoDup_remove_2 in Hnd.
  rewrite map_app in Hf. cbn [map fst] in Hf. apply NoDup_remove_2 in Hf.
  rewrite copies_app. cbn [copies]. rewrite copies_out.
  - rewrite nth_set_z by (rewrite ?copies_length; lia). rewrite Z.eqb_refl.
    destruct (copies_origin L1 l r H1 ltac:(lia)) as [O _]. destruct (O Hin) as (x & X1 & ->).
    rewrite map_app in Hd. cbn [map fst] in Hd. apply Hd.
    + apply in_or_app. now left.
    + apply in_or_app. right. now left.
    + intros ->. apply Hf. apply in_or_app. now left.
  - now rewrite set_nth_length, copies_length.
  - lia.
  - intros Hi. apply Hnd. apply in_or_app. now right.
Qed.

(** * The loops of the code are such loops *)

Lemma strided_copies b t2 : forall L h l,
  nth_error h (baddr b) = Some l -> baddr (sdata t2) = baddr b -> strided_ok t2 l ->
  Forall (fun e => fst e <> [] /\ in_box (fst e) (sshape t2) /\ 0 <= boff b + snd e < zlen l) L ->
  write_loop (buf_write b) (SrcSto (SStrided t2)) L h
  = (set_nth (baddr b) (copies (map (fun e => (spos t2 (fst e), boff b + snd e)) L) l) h, Ok tt).
Proof.
  induction L as [|[vi p] L IH]; intros h l Hl Hb Ht Hrng; cbn [write_loop map copies fst snd].
  - now rewrite set_nth_same.
  - inversion Hrng as [|? ? (Hne & Hbox & Hp) Hrng']; subst. cbn [fst snd] in *.
    assert (Hv : get_value h (SrcSto (SStrided t2)) vi = Ok (nth (Z.to_nat (spos t2 vi)) l VNone)).
    { assert (Hr : repr h (SStrided t2) (fun i => nth (Z.to_nat (spos t2 i)) l VNone)).
      { exists l. rewrite Hb. split; [exact Hl|]. split; [exact Ht|reflexivity]. }
      cbn [get_value]. destruct vi; [congruence|]. now rewrite (repr_get _ _ _ _ Hr Hbox). }
    rewrite Hv. unfold buf_write at 1, buf_set. rewrite (cell_ok _ _ _ Hl). cbn [bind].
    rewrite pyset_ok by exact Hp. cbn [bind].
    set (l1 := set_nth (Z.to_nat (boff b + p)) _ l).
    rewrite (IH _ l1).
    + now rewrite set_nth_twice.
    + apply set_nth_error_same, nth_error_Some. congruence.
    + exact Hb.
    + apply (strided_ok_length t2 l); [|exact Ht]. unfold l1. apply set_nth_length.
    + eapply Forall_impl; [|exact Hrng']. intros e He. unfold zlen, l1 in *. now rewrite set_nth_length.
Qed.

Lemma dm_copies d t l0 h0 : elem_data d -> dense_based t -> data_addr t = data_addr d ->
  nth_error h0 (data_addr d) = Some l0 -> (exists g, repr h0 d g) -> (exists g, repr h0 t g) ->
  forall L l, length l = length l0 ->
  Forall (fun e => fst e <> [] /\ in_box (fst e) (shape_of t) /\ in_box (snd e) (shape_of d)) L ->
  write_loop (fun h r v => setitem h d (int_tuple r) (SrcSeq v)) (SrcSto t) L (set_nth (data_addr d) l h0)
  = (set_nth (data_addr d) (copies (map (fun e => (spot t (fst e), spot d (snd e))) L) l) h0, Ok tt).
Proof.
  intros Hd Ht Ha Hl0 [gd Hgd] [gt Hgt]. assert (Hdb : dense_based d) by (destruct d; try contradiction; exact I).
  assert (Hc : forall l, nth_error (set_nth (data_addr d) l h0) (data_addr d) = Some l).
  { intros l. apply set_nth_error_same, nth_error_Some. congruence. }
  induction L as [|[vi p] L IH]; intros l Hlen Hb; cbn [write_loop map copies fst snd]; [reflexivity|].
  inversion Hb as [|? ? (B0 & B1 & B2) Hb']; subst. cbn [fst snd] in *.
  pose proof (dense_relist d h0 _ gd l0 l Hdb Hgd Hl0 (Hc l) Hlen) as Rd.
  assert (Rt : repr (set_nth (data_addr d) l h0) t (fun i => nth (Z.to_nat (spot t i)) l VNone)).
  { apply (dense_relist t h0 _ gt l0 l Ht Hgt); rewrite ?Ha; auto. }
  assert (Hv : get_value (set_nth (data_addr d) l h0) (SrcSto t) vi = Ok (nth (Z.to_nat (spot t vi)) l VNone)).
  { cbn [get_value]. destruct vi; [congruence|]. now apply (repr_get _ _ _ _ Rt). }
  rewrite Hv, (elem_write_spot d _ _ l p _ Hd Rd (Hc l) B2), set_nth_twice. apply IH; [|exact Hb'].
  now rewrite set_nth_length.
Qed.

Lemma source_inj ix sh j k : ok_index ix sh -> positive sh ->
  in_box j (slice_shape ix sh) -> in_box k (slice_shape ix sh) -> source_index ix sh j = source_index ix sh k -> j = k.
Proof.
  intros [Hi _] Hp Hj Hk E. unfold source_index in E. rewrite <- !norm_items_source in E by assumption.
  apply (n_source_inj (norm_items (index_items ix) sh) sh); auto.
  - now apply norm_items_normal.
  - now rewrite norm_items_shape.
  - now rewrite norm_items_shape.
Qed.

(** The result for a dense array, whatever the order [R] in which the pairs are
    visited. *)
Lemma copies_exact s h f ix1 ix2 (R : list Z -> list Z -> Prop) js l :
  dense_based s -> repr h s f -> nth_error h (data_addr s) = Some l -> positive (shape_of s) ->
  ok_index ix1 (shape_of s) -> ok_index ix2 (shape_of s) ->
  slice_shape ix1 (shape_of s) = slice_shape ix2 (shape_of s) ->
  (forall j, In j js <-> in_box j (slice_shape ix1 (shape_of s))) -> NoDup js ->
  StronglySorted R js -> (forall j k, R j k -> R k j -> False) ->
  forall h', h' = set_nth (data_addr s)
      (copies (map (fun j => (spot s (source_index ix2 (shape_of s) j), spot s (source_index ix1 (shape_of s) j))) js) l) h ->
  valid h' s
  /\ (forall k, in_box k (slice_shape ix1 (shape_of s)) ->
       (forall j, in_box j (slice_shape ix1 (shape_of s)) -> R j k ->
          source_index ix1 (shape_of s) j <> source_index ix2 (shape_of s) k) ->
       get_elem h' s (source_index ix1 (shape_of s) k) = get_elem h s (source_index ix2 (shape_of s) k))
  /\ ((forall i i', hit ix2 (shape_of s) i -> hit ix2 (shape_of s) i' -> i <> i' -> get_elem h s i <> get_elem h s i') ->
      forall j k, in_box j (slice_shape ix1 (shape_of s)) -> in_box k (slice_shape ix1 (shape_of s)) -> R j k ->
       source_index ix1 (shape_of s) j = source_index ix2 (shape_of s) k ->
       get_elem h' s (source_index ix1 (shape_of s) k) <> get_elem h s (source_index ix2 (shape_of s) k))
  /\ (forall i, in_box i (shape_of s) -> ~ hit ix1 (shape_of s) i -> get_elem h' s i = get_elem h s i).
Proof.
  intros Hd Hr Hl Hp Hok1 Hok2 Hsh Hjs Hnd So Anti h' ->. set (sh := shape_of s) in *.
  set (g := fun j => (spot s (source_index ix2 sh j), spot s (source_index ix1 sh j))).
  set (L := map g js). destruct (repr_spot s h f Hd Hr) as (l0 & Hl0 & Hspot). rewrite Hl in Hl0. injection Hl0 as <-.
  assert (S1 : forall j, in_box j (slice_shape ix1 sh) -> in_box (source_index ix1 sh j) sh)
    by (intros j Hj; now apply source_index_in_box).
  assert (S2 : forall j, in_box j (slice_shape ix1 sh) -> in_box (source_index ix2 sh j) sh)
    by (intros j Hj; apply source_index_in_box; auto; now rewrite <- Hsh).
  assert (Hc : nth_error (set_nth (data_addr s) (copies L l) h) (data_addr s) = Some (copies L l)).
  { apply set_nth_error_same, nth_error_Some. congruence. }
  pose proof (dense_relist s h _ f l _ Hd Hr Hl Hc (copies_length L l)) as Hr'.
  assert (Hcells : cells_ok (length l) L).
  { apply Forall_forall. intros e He. apply in_map_iff in He. destruct He as (j & <- & Hj). apply Hjs in Hj.
    unfold g. cbn [fst snd]. split; [apply (Hspot _ (S2 j Hj))|apply (Hspot _ (S1 j Hj))]. }
  assert (Inj : forall (q : list Z -> Z), (forall j k, In j js -> In k js -> q j = q k -> j = k) -> NoDup (map q js)).
  { intros q Hq. clear - Hq Hnd. induction js as [|x js IH]; cbn [map]; [constructor|].
    inversion Hnd as [|? ? N1 N2]; subst. constructor.
    - intros Hin. apply in_map_iff in Hin. destruct Hin as (y & E & Hy). apply N1.
      rewrite (Hq x y); [exact Hy|now left|now right|now symmetry].
    - apply IH; [exact N2|]. intros j k Hj Hk. apply Hq; now right. }
  assert (Nf : NoDup (map fst L)).
  { unfold L. rewrite map_map. apply Inj. intros j k Hj Hk E. apply Hjs in Hj, Hk. unfold g in E. cbn [fst] in E.
    apply (spot_inj s h f Hd Hr) in E; auto. apply (source_inj ix2 sh); auto; now rewrite <- Hsh. }
  assert (Nw : NoDup (map snd L)).
  { unfold L. rewrite map_map. apply Inj. intros j k Hj Hk E. apply Hjs in Hj, Hk. unfold g in E. cbn [snd] in E.
    apply (spot_inj s h f Hd Hr) in E; auto. apply (source_inj ix1 sh); auto. }
  assert (Get' : forall i, in_box i sh -> get_elem (set_nth (data_addr s) (copies L l) h) s i
                                          = Ok (nth (Z.to_nat (spot s i)) (copies L l) VNone))
    by (intros i Hi; exact (repr_get _ s _ _ Hr' Hi)).
  assert (Get : forall i, in_box i sh -> get_elem h s i = Ok (nth (Z.to_nat (spot s i)) l VNone)).
  { intros i Hi. rewrite (repr_get _ s _ _ Hr Hi). f_equal. apply (Hspot i Hi). }
  assert (Spl : forall k, in_box k (slice_shape ix1 sh) -> exists js1 js2, js = js1 ++ k :: js2
     /\ (forall j, In j js1 -> R j k) /\ (forall j, In j js2 -> R k j)).
  { intros k Hk. apply Hjs in Hk. apply in_split in Hk. destruct Hk as (js1 & js2 & E). exists js1, js2. split; [exact E|].
    rewrite E in So. split; [intros j Hj; now apply (sorted_before R js1 k js2)|].
    clear - So. induction js1 as [|x js1 IH]; cbn [app] in So; inversion So as [|? ? A B]; subst; [|now apply IH].
    now rewrite Forall_forall in B. }
  split; [eexists; exact Hr'|]. split; [|split].
  - intros k Hk Hord. rewrite Get', Get by auto. f_equal. destruct (Spl k Hk) as (js1 & js2 & E & B1 & _).
    assert (EL : L = map g js1 ++ g k :: map g js2) by (unfold L; now rewrite E, map_app).
    assert (Out : ~ In (fst (g k)) (map snd (map g js1))).
    { rewrite map_map. intros Hin. apply in_map_iff in Hin. destruct Hin as (j & Ej & Hj). unfold g in Ej. cbn [fst snd] in Ej.
      assert (Bj : in_box j (slice_shape ix1 sh)) by (apply Hjs; rewrite E; apply in_or_app; now left).
      apply (spot_inj s h f Hd Hr) in Ej; auto. exact (Hord j Bj (B1 j Hj) Ej). }
    rewrite EL in Nw, Hcells |- *. unfold g at 2. apply copies_right; [exact Hcells|exact Nw|exact Out].
  - intros Hdist j k Hj Hk Hjk Heq. rewrite Get', Get by auto. destruct (Spl k Hk) as (js1 & js2 & E & B1 & B2).
    intros X. injection X as X. revert X.
    apply (copies_wrong L l Hcells Nf Nw) with (L1 := map g js1) (L2 := map g js2).
    + unfold L. rewrite map_map. intros x y Hx Hy Hne. apply in_map_iff in Hx, Hy.
      destruct Hx as (a & <- & Ha), Hy as (b & <- & Hb). unfold g in Hne |- *. cbn [fst] in *.
      apply Hjs in Ha, Hb. intros X. apply (Hdist (source_index ix2 sh a) (source_index ix2 sh b)).
      * exists a. split; [now rewrite <- Hsh|reflexivity].
      * exists b. split; [now rewrite <- Hsh|reflexivity].
      * intros X2. apply Hne. now rewrite X2.
      * rewrite !Get by auto. now rewrite X.
    + unfold L. now rewrite E, map_app.
    + rewrite map_map. apply in_map_iff. exists j. unfold g. cbn [fst snd]. split; [now rewrite Heq|].
      apply Hjs in Hj. rewrite E in Hj. apply in_app_or in Hj. destruct Hj as [Hj|[<-|Hj]]; [exact Hj| |]; exfalso.
      * exact (Anti _ _ Hjk Hjk).
      * exact (Anti _ _ Hjk (B2 j Hj)).
  - intros i Hi Hn. rewrite Get', Get by auto. f_equal. apply copies_out; [exact Hcells|apply (Hspot i Hi)|].
    unfold L. rewrite map_map. intros Hin. apply in_map_iff in Hin. destruct Hin as (j & Ej & Hj). unfold g in Ej. cbn [snd] in Ej.
    apply Hjs in Hj. apply (spot_inj s h f Hd Hr) in Ej; auto. apply Hn. exists j. auto.
Qed.

(** The value read through the second slice is found afterwards at an index
    of the first exactly if its place was not overwritten before it was read. *)
Theorem C45_overlapping_exact : forall h t ix1 ix2 v,
  valid h (SStrided t) -> positive (sshape t) ->
  ok_index ix1 (sshape t) -> ok_index ix2 (sshape t) ->
  slice_shape ix1 (sshape t) = slice_shape ix2 (sshape t) -> slice_shape ix1 (sshape t) <> [] ->
  getitem h (SStrided t) ix2 = Ok (ISto v, h) ->
  exists h', setitem h (SStrided t) ix1 (SrcSto v) = (h', Ok tt)
    /\ valid h' (SStrided t)
    /\ (forall k, in_box k (slice_shape ix1 (sshape t)) ->
         (forall j, in_box j (slice_shape ix1 (sshape t)) -> row_major_lt j k ->
            source_index ix1 (sshape t) j <> source_index ix2 (sshape t) k) ->
         get_elem h' (SStrided t) (source_index ix1 (sshape t) k)
         = get_elem h (SStrided t) (source_index ix2 (sshape t) k))
    /\ ((forall i i', hit ix2 (sshape t) i -> hit ix2 (sshape t) i' -> i <> i' ->
           get_elem h (SStrided t) i <> get_elem h (SStrided t) i') ->
        forall j k, in_box j (slice_shape ix1 (sshape t)) -> in_box k (slice_shape ix1 (sshape t)) ->
         row_major_lt j k -> source_index ix1 (sshape t) j = source_index ix2 (sshape t) k ->
         get_elem h' (SStrided t) (source_index ix1 (sshape t) k)
         <> get_elem h (SStrided t) (source_index ix2 (sshape t) k))
    /\ (forall i, in_box i (sshape t) -> ~ hit ix1 (sshape t) i ->
          get_elem h' (SStrided t) i = get_elem h (SStrided t) i).
Proof.
  intros h t ix1 ix2 v [f Hr] Hp Hok1 Hok2 Hsh Hne Hg. pose proof Hr as (l & Hl & Ht & Hf).
  destruct (strided_slice h t l ix2 Hl Ht Hp Hok2 ltac:(congruence)) as (t2 & G1 & G2 & G3 & _ & G5 & G6).
  cbn [getitem] in Hg. rewrite G1 in Hg. cbn [bind] in Hg. injection Hg as <-.
  destruct (strided_positions t l ix1 Ht Hp Hok1) as (L & EL & HL & Hnd & Hrng & Hfst).
  assert (B2 : forall j, in_box j (slice_shape ix1 (sshape t)) -> in_box j (sshape t2)) by (intros j Hj; now rewrite G2, <- Hsh).
  eexists. split; [|apply (copies_exact (SStrided t) h f ix1 ix2 row_major_lt (cart (slice_shape ix1 (sshape t))) l)];
    cbn [shape_of data_addr spot]; auto.
  - rewrite (strided_setitem_run h t ix1 _ L EL), (strided_copies (sdata t) t2 L h l Hl G3 G5).
    + rewrite <- Hfst, map_map. do 2 f_equal. f_equal. apply map_ext_in. intros [j p] Hin. cbn [fst snd].
      apply HL in Hin. destruct Hin as [Bj ->]. f_equal. now apply G6, B2.
    + apply Forall_forall. intros [vi p] Hin. cbn [fst snd]. pose proof (proj1 (HL vi p) Hin) as [Hb _].
      split; [intros ->; inversion Hb; congruence|]. split; [now apply B2|].
      rewrite Forall_forall in Hrng. exact (Hrng _ Hin).
  - exact I.
  - intros j. apply In_cart.
  - apply sorted_NoDup, cart_sorted.
  - apply cart_sorted.
  - intros j k A B. exact (row_major_lt_irrefl j (row_major_lt_trans _ _ _ A B)).
Qed.
Print Assumptions C45_overlapping_exact.

Theorem C45_dm_exact : forall h0 h s ix1 ix2 v h1,
  built_dm h0 h s -> slice_writes s ->
  ok_index ix1 (shape_of s) -> ok_index ix2 (shape_of s) ->
  slice_shape ix1 (shape_of s) = slice_shape ix2 (shape_of s) -> slice_shape ix1 (shape_of s) <> [] ->
  getitem h s ix2 = Ok (ISto v, h1) ->
  exists h', setitem h1 s ix1 (SrcSto v) = (h', Ok tt)
    /\ valid h' s
    /\ (forall k, in_box k (slice_shape ix1 (shape_of s)) ->
         (forall j, in_box j (slice_shape ix1 (shape_of s)) ->
            row_major_lt (source_index ix1 (shape_of s) j) (source_index ix1 (shape_of s) k) ->
            source_index ix1 (shape_of s) j <> source_index ix2 (shape_of s) k) ->
         get_elem h' s (source_index ix1 (shape_of s) k) = get_elem h s (source_index ix2 (shape_of s) k))
    /\ ((forall i i', hit ix2 (shape_of s) i -> hit ix2 (shape_of s) i' -> i <> i' -> get_elem h s i <> get_elem h s i') ->
        forall j k, in_box j (slice_shape ix1 (shape_of s)) -> in_box k (slice_shape ix1 (shape_of s)) ->
         row_major_lt (source_index ix1 (shape_of s) j) (source_index ix1 (shape_of s) k) ->
         source_index ix1 (shape_of s) j = source_index ix2 (shape_of s) k ->
         get_elem h' s (source_index ix1 (shape_of s) k) <> get_elem h s (source_index ix2 (shape_of s) k))
    /\ (forall i, in_box i (shape_of s) -> ~ hit ix1 (shape_of s) i -> get_elem h' s i = get_elem h s i).
Proof.
  intros h0 h s ix1 ix2 t h1 Hb Hw Hok1 Hok2 Hsh Hne Hg.
  destruct (built_dm_ok h0 h s Hb) as (f & Hr & Hz & Hdm & Hp).
  destruct s as [| | | | | |sh rd rsh rs ro d]; try contradiction. cbn [shape_of] in *.
  assert (He : elem_data d) by (destruct d; try contradiction; exact I).
  set (s := SDM sh rd rsh rs ro d) in *.
  assert (Hds : dense_based s) by (destruct d; try contradiction; exact I).
  assert (Hne2 : slice_shape ix2 sh <> []) by congruence.
  destruct (getitem_slice_full s h f ix2 Hr Hp Hok2 Hne2 (safe_zero s h f ix2 Hr Hz Hp Hok2 Hne2 (is_dm_not_buffer s Hdm)))
    as (t' & h1' & E1 & E2 & E3 & E4 & E5 & E6 & _ & E8).
  rewrite Hg in E1. injection E1 as <- <-. destruct (E6 Hds) as (-> & Ead & Hdt). specialize (E8 Hds).
  pose proof Hr as (g & Hgd & Hm & Hf). cbn [shape_of s] in E2, E8.
  assert (Ha : data_addr t = data_addr d).
  { pose proof (f_equal (hd 0%nat) Ead) as X. exact X. }
  destruct (dm_positions _ _ _ _ _ _ ix1 Hm Hp Hok1 Hne) as (L & EL & HL & Hnd & HbL).
  assert (Hsrc1 : forall j, in_box j (slice_shape ix1 sh) -> in_box (source_index ix1 sh j) sh)
    by (intros j Hj; now apply source_index_in_box).
  destruct (repr_spot s h f Hds Hr) as (l & Hl & Hspot). cbn [data_addr s] in Hl.
  assert (So : StronglySorted (fun e e' => earlier s ix1 (fst e) (fst e')) L).
  { set (R := fun p q => forall i k, in_box i sh -> in_box k sh -> p = dm_index rd rs ro i -> q = dm_index rd rs ro k -> row_major_lt i k).
    assert (So : StronglySorted R (map snd L)).
    { destruct (normalize_index ix1 sh) as [nix|]; cbn [bind] in EL; [|discriminate].
      destruct (index_strided _ _ _ _) as [[[sh' st'] off']|]; cbn [bind] in EL; [|discriminate].
      apply (slice_iad_sorted R _ _ _ _ _ _ _ (dm_iad_ok _ _ _ _ _ _ Hm) EL).
      rewrite map_map. cbn [snd]. apply (sorted_map _ row_major_lt); [|apply cart_sorted].
      intros i0 k0 Hi Hk0 Hlt i' k' Hi' Hk' Ei Ek'. apply In_cart in Hi, Hk0.
      apply (dm_inj _ _ _ _ _ _ Hm) in Ei, Ek'; auto. now subst. }
    apply sorted_unmap in So. revert So. apply sorted_impl. intros [j1 p1] [k1 q1] H1 H2 Hlt. cbn [fst snd] in *.
    apply HL in H1, H2. destruct H1 as [Bj ->]. destruct H2 as [Bk ->]. unfold earlier, s. cbn [shape_of].
    apply Hlt; auto. }
  assert (Anti : forall j k, earlier s ix1 j k -> earlier s ix1 k j -> False).
  { intros j k A B. unfold earlier, s in A, B. exact (row_major_lt_irrefl _ (row_major_lt_trans _ _ _ A B)). }
  eexists. split; [|apply (copies_exact s h f ix1 ix2 (earlier s ix1) (map fst L) l)]; cbn [shape_of s]; auto.
  - unfold s. rewrite (dm_setitem_run _ _ _ _ _ _ _ _ _ _ EL).
    pose proof (dm_copies d t l h He Hdt Ha Hl (ex_intro _ g Hgd) (ex_intro _ _ E5) L l eq_refl) as X.
    rewrite set_nth_same in X by exact Hl. rewrite X; clear X.
    + cbn [data_addr]. rewrite map_map. do 2 f_equal. f_equal. apply map_ext_in. intros [j p] Hin. cbn [fst snd].
      apply HL in Hin. destruct Hin as [Bj ->]. rewrite E8 by now rewrite <- Hsh. reflexivity.
    + apply Forall_forall. intros [j p] Hin. cbn [fst snd]. rewrite Forall_forall in HbL.
      pose proof (HbL _ Hin) as B. apply HL in Hin. destruct Hin as [Hj _].
      split; [intros ->; inversion Hj; congruence|]. split; [now rewrite E2, <- Hsh|exact B].
  - intros j. split.
    + intros Hin. apply in_map_iff in Hin. destruct Hin as ([j' p] & <- & Hin). now apply HL in Hin.
    + intros Hj. apply in_map_iff. exists (j, dm_index rd rs ro (source_index ix1 sh j)). split; [reflexivity|now apply HL].
  - clear - So Anti. induction So as [|e L So IH Hf]; cbn [map]; constructor; auto. intros Hin.
    apply in_map_iff in Hin. destruct Hin as (e' & E & Hin). rewrite Forall_forall in Hf. specialize (Hf _ Hin).
    rewrite E in Hf. exact (Anti _ _ Hf Hf).
  - clear - So. induction So as [|e L So IH Hf]; cbn [map]; constructor; auto. apply Forall_map. exact Hf.
Qed.
Print Assumptions C45_dm_exact.

(** [1, 2, 3]: s[:] = s[::-1] gives [3, 2, 3]; the elements are different, 0 is
    written for j = 0 and read for k = 2. s[:-1] = s[1:] meets the condition for
    every k (C45_case), s[1:] = s[:-1] violates it for k = 1. *)
Example C45_exact_case : forall c, In c [CStrided; CDM] ->
  row_major_lt [0] [2] /\ source_index everything [3] [0] = source_index (XItem (ISlice (Sl None None (Some (-1))))) [3] [2]
  /\ ('(s, h) <- fromobject c [] (SrcSeq list_3) fo_default ;;
      '(t, h1) <- getitems h s [XItem (ISlice (Sl None None (Some (-1))))] ;;
      let '(h2, r) := setitem h1 s everything (SrcSto t) in
      _ <- r ;; before <- mapM (get_elem h s) (cart [3]) ;; after <- mapM (get_elem h2 s) (cart [3]) ;; Ok (before, after))
     = Ok ([VInt 1; VInt 2; VInt 3], [VInt 3; VInt 2; VInt 3])
  /\ ('(s, h) <- fromobject c [] (SrcSeq list_3) fo_default ;;
      '(t, h1) <- getitems h s [XItem (ISlice (Sl None (Some (-1)) None))] ;;
      let '(h2, r) := setitem h1 s (XItem (ISlice (Sl (Some 1) None None))) (SrcSto t) in
      _ <- r ;; mapM (get_elem h2 s) (cart [3]))
     = Ok [VInt 1; VInt 1; VInt 1].
Proof.
  intros c Hc. split; [constructor; [lia|reflexivity]|]. split; [vm_compute; reflexivity|].
  destruct Hc as [<-|[<-|[]]]; split; vm_compute; reflexivity.
Qed.

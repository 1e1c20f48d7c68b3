(** Positions in the data lists: what views share and what assignments write. *)
From Coq Require Import Sorting.Sorted Permutation ZifyBool.
From Verif Require Import Py SliceTools Basics Storage Spec SliceFacts IndexFacts
  CompressFacts ReduceFacts SolverFacts SolveFacts Repr ReprFacts ViewFacts BuildFacts SparseFacts
  ConvFacts FromFacts DMFacts ReadFacts MapFacts ChainFacts WriteFacts EffectFacts PureFacts AliasFacts
  PropRead PropWrite PropIndex PropReach.

Lemma box1 i n : in_box i [n] -> exists x, i = [x] /\ 0 <= x < n.
Proof. intros H. inversion H as [|x ? i' ? Hx H']; subst. inversion H'; subst. eauto. Qed.

Lemma repr_spot : forall s h f, dense_based s -> repr h s f ->
  exists l, nth_error h (data_addr s) = Some l
    /\ forall i, in_box i (shape_of s) -> 0 <= spot s i < zlen l /\ f i = nth (Z.to_nat (spot s i)) l VNone.
Proof.
  induction s as [b|t|sh ind d|sh fi d|sh cr co d|sh ch a b c d|sh rd rsh rs ro d IH]; intros h f Hd Hr; try contradiction.
  - destruct Hr as (vs & (l & Hl & Ho & Hs & He & Hw) & Hf). exists l. split; [exact Hl|]. intros i Hi.
    apply box1 in Hi. destruct Hi as (x & -> & Hx). cbn [spot nth]. split; [lia|].
    rewrite Hf by lia. rewrite <- Hw at 1. unfold zlen in *. rewrite nth_firstn by lia. rewrite nth_skipn. f_equal. lia.
  - destruct Hr as (l & Hl & Ht & Hf). exists l. split; [exact Hl|]. intros i Hi. cbn [spot shape_of] in *.
    pose proof (so_pos _ _ Ht i Hi). pose proof (so_end _ _ Ht). split; [lia|now apply Hf].
  - destruct Hr as (g & Hg & Hm & Hf). destruct (IH h g Hd Hg) as (l & Hl & H). exists l. split; [exact Hl|].
    intros i Hi. cbn [spot shape_of] in *. rewrite Hf by exact Hi. apply H. now apply (dm_box _ _ _ _ _ _ Hm).
Qed.

Lemma spot_inj : forall s h f, dense_based s -> repr h s f ->
  forall i j, in_box i (shape_of s) -> in_box j (shape_of s) -> spot s i = spot s j -> i = j.
Proof.
  induction s as [b|t|sh ind d|sh fi d|sh cr co d|sh ch a b c d|sh rd rsh rs ro d IH];
    intros h f Hd Hr i j Hi Hj E; try contradiction; cbn [spot shape_of] in *.
  - apply box1 in Hi, Hj. destruct Hi as (x & -> & Hx), Hj as (y & -> & Hy). cbn in E. f_equal. lia.
  - destruct Hr as (l & Hl & Ht & Hf). now apply (so_inj _ _ Ht).
  - destruct Hr as (g & Hg & Hm & Hf). apply (dm_inj _ _ _ _ _ _ Hm i j Hi Hj).
    eapply IH; try eassumption; now apply (dm_box _ _ _ _ _ _ Hm).
Qed.

Lemma dense_relist : forall s h h' f l l', dense_based s -> repr h s f ->
  nth_error h (data_addr s) = Some l -> nth_error h' (data_addr s) = Some l' -> length l' = length l ->
  repr h' s (fun i => nth (Z.to_nat (spot s i)) l' VNone).
Proof.
  induction s as [b|t|sh ind d|sh fi d|sh cr co d|sh ch a b c d|sh rd rsh rs ro d IH];
    intros h h' f l l' Hd Hr Hl Hl' E; try contradiction; cbn [spot data_addr] in *.
  - destruct Hr as (vs & (l0 & Hl0 & Ho & Hs & He & Hw) & Hf). rewrite Hl in Hl0. injection Hl0 as <-.
    unfold zlen in *.
    exists (firstn (length vs) (skipn (Z.to_nat (boff b)) l')).
    assert (Hfl : length (firstn (length vs) (skipn (Z.to_nat (boff b)) l')) = length vs).
    { rewrite firstn_length, skipn_length, E. lia. }
    split.
    + exists l'. unfold zlen. rewrite Hfl. split; [exact Hl'|]. split; [exact Ho|]. split; [exact Hs|]. split; [lia|reflexivity].
    + intros x Hx. unfold zlen in Hx. rewrite Hfl in Hx. cbn [nth]. rewrite nth_firstn by lia. rewrite nth_skipn. f_equal. lia.
  - destruct Hr as (l0 & Hl0 & Ht & Hf). rewrite Hl in Hl0. injection Hl0 as <-.
    exists l'. split; [exact Hl'|]. split; [now apply (strided_ok_length t l)|reflexivity].
  - destruct Hr as (g & Hg & Hm & Hf). exists (fun r => nth (Z.to_nat (spot d r)) l' VNone).
    split; [eapply IH; eassumption|]. split; [exact Hm|reflexivity].
Qed.

(** * Assignments *)

(** [l'] is [l] with [val j] at the positions of the selected elements. *)
Definition overwrites (s : storage) (ix : pyindex) (val : list Z -> pyval) (l l' : list pyval) : Prop :=
  length l' = length l
  /\ (forall j, in_box j (slice_shape ix (shape_of s)) ->
        nth (Z.to_nat (spot s (source_index ix (shape_of s) j))) l' VNone = val j)
  /\ (forall q, 0 <= q -> (forall j, in_box j (slice_shape ix (shape_of s)) -> q <> spot s (source_index ix (shape_of s) j)) ->
        nth (Z.to_nat q) l' VNone = nth (Z.to_nat q) l VNone).

Lemma in_box_nil j : in_box j [] -> j = [].
Proof. intros H. now inversion H. Qed.

(** Element assignment to Buffer and Strided arrays. *)
Lemma elem_write_spot d h f l r v : elem_data d -> repr h d f -> nth_error h (data_addr d) = Some l ->
  in_box r (shape_of d) ->
  setitem h d (int_tuple r) (SrcSeq v) = (set_nth (data_addr d) (set_nth (Z.to_nat (spot d r)) v l) h, Ok tt).
Proof.
  intros Hd Hr Hl Hb.
  assert (Hdb : dense_based d) by (destruct d; try contradiction; exact I).
  destruct (repr_spot d h f Hdb Hr) as (l0 & Hl0 & Hs). rewrite Hl in Hl0. injection Hl0 as <-.
  destruct (Hs r Hb) as [Hrg _]. destruct d as [b|t| | | | |]; try contradiction; cbn [shape_of data_addr spot] in *.
  - apply box1 in Hb. destruct Hb as (x & -> & Hx). cbn [nth] in *. unfold int_tuple. cbn [map setitem].
    unfold buffer_setitem, buf_write, buf_set. cbn [buf_complete_index].
    rewrite (cell_ok _ _ _ Hl). cbn [bind]. rewrite pyset_ok by exact Hrg. reflexivity.
  - pose proof Hr as (l0 & Hl0 & Ht & _). rewrite Hl in Hl0. injection Hl0 as <-.
    destruct (strided_write h t l (int_tuple r) (SrcSeq v) (fun _ => v) Hl Ht (in_box_positive_shape _ _ Hb)
               (int_tuple_ok r _ (in_box_len _ _ Hb))) as (l' & E1 & E2 & E3 & E4).
    { intros l'' _ _ j Hj. rewrite int_tuple_shape in Hj by (now apply in_box_len). apply in_box_nil in Hj. subst j. reflexivity. }
    rewrite E1. f_equal. f_equal. apply nth_ext with (d := VNone) (d' := VNone); [now rewrite set_nth_length|].
    intros n Hn. rewrite set_nth_nth by (unfold zlen in Hrg; lia). rewrite int_tuple_shape in E3, E4 by (now apply in_box_len).
    specialize (E3 [] (Forall2_nil _)). rewrite (int_tuple_source r _ Hb) in E3.
    destruct (Nat.eqb_spec n (Z.to_nat (spos t r))) as [->|Hne]; [exact E3|].
    specialize (E4 (Z.of_nat n) ltac:(lia)). rewrite Nat2Z.id in E4. apply E4. intros j Hj. apply in_box_nil in Hj. subst j.
    rewrite (int_tuple_source r _ Hb). lia.
Qed.

Lemma set_nth_twice {A} a (l1 l2 : A) h : set_nth a l2 (set_nth a l1 h) = set_nth a l2 h.
Proof. revert h. induction a as [|a IH]; intros [|x h]; cbn; try reflexivity. now rewrite IH. Qed.
Lemma set_nth_same {A} (h : list A) : forall a l, nth_error h a = Some l -> set_nth a l h = h.
Proof.
  induction h as [|x h IH]; intros [|a] l H; cbn in *; try discriminate; [now injection H as ->|]. now rewrite IH.
Qed.

Lemma dm_write_loop_spot d value val : elem_data d -> forall L h f l, repr h d f ->
  nth_error h (data_addr d) = Some l ->
  (forall h'', updated (data_addr d) h h'' -> forall vi p, In (vi, p) L -> get_value h'' value vi = Ok (val vi)) ->
  NoDup (map snd L) -> Forall (fun e => in_box (snd e) (shape_of d)) L ->
  exists l', write_loop (fun h r v => setitem h d (int_tuple r) (SrcSeq v)) value L h
             = (set_nth (data_addr d) l' h, Ok tt)
    /\ length l' = length l
    /\ (forall vi p, In (vi, p) L -> nth (Z.to_nat (spot d p)) l' VNone = val vi)
    /\ (forall q, 0 <= q -> (forall p, In p (map snd L) -> q <> spot d p) ->
          nth (Z.to_nat q) l' VNone = nth (Z.to_nat q) l VNone).
Proof.
  intros Hd. assert (Hdb : dense_based d) by (destruct d; try contradiction; exact I).
  induction L as [|[vi p] L IH]; intros h f l Hr Hl Hread Hnd Hb; cbn [write_loop].
  - exists l. rewrite set_nth_same by exact Hl. repeat split; auto. intros vi p [].
  - inversion Hnd as [|? ? N1 N2]; subst. inversion Hb as [|? ? B1 B2]; subst. cbn [snd] in *.
    rewrite (Hread h (updated_refl _ _) vi p (or_introl eq_refl)).
    rewrite (elem_write_spot d h f l p (val vi) Hd Hr Hl B1).
    destruct (repr_spot d h f Hdb Hr) as (l0 & Hl0 & Hs). rewrite Hl in Hl0. injection Hl0 as <-.
    destruct (Hs p B1) as [Hrg _].
    set (l1 := set_nth (Z.to_nat (spot d p)) (val vi) l). set (h1 := set_nth (data_addr d) l1 h).
    assert (Hlen : length l1 = length l) by apply set_nth_length.
    assert (Hl1 : nth_error h1 (data_addr d) = Some l1) by (apply set_nth_error_same, nth_error_Some; congruence).
    assert (Hu : updated (data_addr d) h h1) by (eapply updated_set; eassumption).
    pose proof (dense_relist d h h1 f l l1 Hdb Hr Hl Hl1 Hlen) as Hr1.
    destruct (IH h1 _ l1 Hr1 Hl1) as (l' & F1 & F2 & F3 & F4); auto.
    { intros h'' Hu' v2 p2 Hin. apply (Hread h'') with (p := p2); [eapply updated_trans; eassumption|now right]. }
    exists l'. rewrite F1. unfold h1. rewrite set_nth_twice. split; [reflexivity|]. split; [congruence|].
    assert (Hn1 : forall q, 0 <= q -> q <> spot d p -> nth (Z.to_nat q) l1 VNone = nth (Z.to_nat q) l VNone).
    { intros q Hq Hne. unfold l1. rewrite set_nth_nth by (unfold zlen in Hrg; lia).
      replace (Nat.eqb _ _) with false; [reflexivity|]. symmetry. apply Nat.eqb_neq. lia. }
    split.
    + intros v2 p2 [E|Hin]; [|now apply F3]. injection E as <- <-. rewrite F4.
      * unfold l1. rewrite set_nth_nth by (unfold zlen in Hrg; lia). now rewrite Nat.eqb_refl.
      * lia.
      * intros p3 H3 E. apply N1. rewrite Forall_forall in B2.
        assert (B3 : in_box p3 (shape_of d)).
        { apply in_map_iff in H3. destruct H3 as (e & <- & He). now apply B2. }
        now rewrite (spot_inj d h f Hdb Hr p p3 B1 B3 E).
    + intros q Hq Hout. rewrite F4; [|exact Hq|].
      * apply Hn1; [exact Hq|]. apply Hout. now left.
      * intros p3 H3. apply Hout. now right.
Qed.

(** The assignments whose effect the specification describes. *)
Inductive writes_dense : storage -> pyindex -> Prop :=
| wd_buffer b k : 0 <= k < bsize b -> writes_dense (SBuffer b) (XItem (IInt k))
| wd_strided t ix : positive (sshape t) -> ok_index ix (sshape t) -> writes_dense (SStrided t) ix
| wd_dm sh rd rsh rs ro d ix : elem_data d -> positive sh -> ok_index ix sh -> slice_shape ix sh <> [] ->
    writes_dense (SDM sh rd rsh rs ro d) ix.

Lemma dense_write s h f l ix value val : writes_dense s ix -> repr h s f -> nth_error h (data_addr s) = Some l ->
  (forall h'', updated (data_addr s) h h'' -> forall j, in_box j (slice_shape ix (shape_of s)) ->
     get_value h'' value j = Ok (val j)) ->
  (match s with SBuffer _ => exists v, value = SrcSeq v | _ => True end) ->
  exists l', setitem h s ix value = (set_nth (data_addr s) l' h, Ok tt) /\ overwrites s ix val l l'.
Proof.
  intros W Hr Hl Hread Hv. destruct W as [b k Hk|t ix Hp Hok|sh rd rsh rs ro d ix He Hp Hok Hne]; cbn [data_addr shape_of] in *.
  - destruct Hv as [v ->].
    assert (Ev : val [] = v).
    { specialize (Hread h (updated_refl _ _) [] ltac:(constructor)). cbn in Hread. congruence. }
    assert (Hm : source_index (XItem (IInt k)) [bsize b] [] = [k]).
    { unfold source_index. cbn. now rewrite Z.mod_small by lia. }
    pose proof (elem_write_spot (SBuffer b) h f l [k] v I Hr Hl ltac:(repeat constructor; lia)) as E.
    destruct (repr_spot (SBuffer b) h f I Hr) as (l0 & Hl0 & Hs). cbn [data_addr] in Hl0. rewrite Hl in Hl0. injection Hl0 as <-.
    destruct (Hs [k] ltac:(repeat constructor; lia)) as [Hrg _]. cbn [spot nth] in *.
    exists (set_nth (Z.to_nat (boff b + k)) v l). split; [exact E|].
    split; [apply set_nth_length|]. cbn [slice_shape index_items items_shape shape_of]. split.
    + intros j Hj. apply in_box_nil in Hj. subst j. rewrite Hm. cbn [spot nth].
      rewrite set_nth_nth by (unfold zlen in Hrg; lia). now rewrite Nat.eqb_refl.
    + intros q Hq Hout. specialize (Hout [] (Forall2_nil _)). rewrite Hm in Hout. cbn [spot nth] in Hout.
      rewrite set_nth_nth by (unfold zlen in Hrg; lia).
      replace (Nat.eqb _ _) with false; [reflexivity|]. symmetry. apply Nat.eqb_neq. lia.
  - destruct Hr as (l0 & Hl0 & Ht & _). rewrite Hl in Hl0. injection Hl0 as <-.
    destruct (strided_write h t l ix value val Hl Ht Hp Hok) as (l' & E1 & E2 & E3 & E4).
    { intros l'' Hlen _ j Hj. apply Hread; [|exact Hj]. eapply updated_set; eassumption. }
    exists l'. split; [exact E1|]. split; [exact E2|]. split; assumption.
  - destruct Hr as (g & Hg & Hm & Hf).
    destruct (dm_positions _ _ _ _ _ _ ix Hm Hp Hok Hne) as (L & EL & HL & Hnd & Hb).
    rewrite (dm_setitem_run _ _ _ _ _ _ _ _ _ _ EL).
    destruct (dm_write_loop_spot d value val He L h g l Hg Hl) as (l' & E1 & E2 & E3 & E4); auto.
    { intros h'' Hu j p Hin. apply Hread; [exact Hu|]. apply HL in Hin. apply Hin. }
    exists l'. split; [exact E1|]. split; [exact E2|]. cbn [shape_of spot]. split.
    + intros j Hj. apply E3. apply HL. auto.
    + intros q Hq Hout. apply E4; [exact Hq|]. intros p Hin. apply in_map_iff in Hin. destruct Hin as ([j p'] & Ep & Hin).
      cbn in Ep. subst p'. apply HL in Hin. destruct Hin as [Hj ->]. now apply Hout.
Qed.

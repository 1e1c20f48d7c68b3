(** Effects of assignments: element assignment to sparse and mapped arrays,
    writes through chains of views, overlapping self-assignment. *)
From Coq Require Import Sorting.Sorted Permutation ZifyBool.
From Verif Require Import Py SliceTools Basics Storage Spec SliceFacts IndexFacts
  CompressFacts ReduceFacts SolverFacts SolveFacts Repr ReprFacts ViewFacts BuildFacts SparseFacts
  ConvFacts FromFacts DMFacts ReadFacts MapFacts ChainFacts WriteFacts.

(** ** Element assignment to sparse and mapped arrays *)

Lemma elem_data_cases s h f : repr h s f -> elem_data s \/ is_sparse s \/ is_dm s.
Proof. destruct s; cbn; try tauto. intros (E & [] & _). Qed.

Lemma lookup_map_snd v u E i : lookup (map_snd (fun _ => v) E) u i = v
  \/ (lookup (map_snd (fun _ => v) E) u i = lookup E u i /\ lookup E u i = u).
Proof.
  unfold lookup, map_snd. induction E as [|[k x] E IH]; cbn [map find fst snd]; [right; auto|].
  destruct (lex_eqb k i); [left; reflexivity|exact IH].
Qed.

Lemma lookup_map_snd_in v u E i : In i (map fst E) -> lookup (map_snd (fun _ => v) E) u i = v.
Proof.
  unfold lookup, map_snd. induction E as [|[k x] E IH]; cbn [map find fst snd]; [intros []|].
  destruct (lex_eqb k i) eqn:El; [reflexivity|]. intros [->|H]; [|auto].
  rewrite lex_eqb_refl in El. discriminate.
Qed.

Lemma lookup_map_snd_out (g : pyval -> pyval) u E i : ~ In i (map fst E) -> lookup (map_snd g E) u i = u.
Proof.
  unfold lookup, map_snd. induction E as [|[k x] E IH]; cbn [map find fst snd]; [reflexivity|].
  intros H. destruct (lex_eqb k i) eqn:El; [|apply IH; intros X; apply H; now right].
  apply lex_eqb_eq in El. subst. exfalso. apply H. now left.
Qed.

Lemma repr_of_entries h s E : entries h s E -> repr h s (lookup E (unspecified_of s)).
Proof. intros HE. destruct s; try (cbn in HE; contradiction); exists E; (split; [exact HE|reflexivity]). Qed.

Lemma sparse_entries h s f : repr h s f -> is_sparse s ->
  exists E, entries h s E /\ forall i, in_box i (shape_of s) -> f i = lookup E (unspecified_of s) i.
Proof. intros Hr Hs. destruct s; try contradiction; exact Hr. Qed.

(** What an element assignment does to sparse and mapped arrays. *)
Definition overwrites (s : storage) (v : pyval) (f g : list Z -> pyval) : Prop :=
  forall i, in_box i (shape_of s) -> g i = v \/ (g i = f i /\ f i = unspecified_of s).

Lemma overwrites_loop d v :
  (forall h f r, repr h d f -> in_box r (shape_of d) ->
     exists h' g, setitem h d (int_tuple r) (SrcSeq v) = (h', Ok tt) /\ repr h' d g /\ overwrites d v f g) ->
  forall L h f, repr h d f -> Forall (fun e => fst e = [] /\ in_box (snd e) (shape_of d)) L ->
  exists h' g, write_loop (fun h r v => setitem h d (int_tuple r) (SrcSeq v)) (SrcSeq v) L h = (h', Ok tt)
    /\ repr h' d g /\ (L <> [] -> overwrites d v f g).
Proof.
  intros Hw. induction L as [|[vi p] L IH]; intros h f Hr HL; cbn [write_loop].
  - exists h, f. split; [reflexivity|]. split; [exact Hr|congruence].
  - inversion HL as [|? ? [H1 H2] HL']; subst. cbn [fst snd] in *. subst vi. cbn [get_value seq_value].
    destruct (Hw h f p Hr H2) as (h1 & g1 & E1 & E2 & E3). rewrite E1.
    destruct (IH h1 g1 E2 HL') as (h' & g & F1 & F2 & F3). exists h', g. split; [exact F1|]. split; [exact F2|].
    intros _ i Hi. destruct L as [|e L].
    + cbn [write_loop] in F1. injection F1 as <-.
      pose proof (repr_get _ _ _ i F2 Hi) as G.
      rewrite (repr_get _ _ _ i E2 Hi) in G. injection G as <-. now apply E3.
    + specialize (F3 ltac:(discriminate) i Hi). specialize (E3 i Hi).
      destruct F3 as [F3|[F3 F4]]; [now left|]. destruct E3 as [E3|[E3 E4]]; [left; congruence|right; split; congruence].
Qed.

Lemma element_overwrites : forall s h f ix v, repr h s f -> is_sparse s \/ is_dm s ->
  positive (shape_of s) -> ok_index ix (shape_of s) -> slice_shape ix (shape_of s) = [] ->
  exists h' g, setitem h s ix (SrcSeq v) = (h', Ok tt) /\ repr h' s g /\ overwrites s v f g.
Proof.
  induction s as [b|t|sh ind d|sh fi d|sh cr co d|sh ch a b c d|sh rd rsh rs ro d IH];
    intros h f ix v Hr Hc Hp Hok Hnil; try (exfalso; cbn in Hc; tauto).
  1-3: match goal with |- context [setitem _ ?s _ _] =>
         destruct (sparse_entries h s f Hr I) as (E & HE & Hf);
         destruct (sparse_write_element h s E ix v HE Hp Hok Hnil) as (l' & E1 & E2);
         eexists _, _; split; [exact E1|]; split; [exact (repr_of_entries _ _ _ E2)|];
         intros i Hi; rewrite (Hf i Hi); apply lookup_map_snd end.
  assert (Hd : elem_data d \/ (is_sparse d \/ is_dm d)).
  { destruct Hr as (g & Hg & _). exact (elem_data_cases d h g Hg). }
  destruct Hd as [Hd|Hd].
  { destruct (dm_write_element h sh rd rsh rs ro d f ix v Hr Hd Hp Hok Hnil) as (h' & E1 & E2).
    exists h', (fun _ => v). split; [exact E1|]. split; [exact E2|]. intros i _. now left. }
  destruct Hr as (g & Hg & Hdm & Hf). cbn [shape_of] in *. pose proof Hok as [Hitems _].
  destruct (dm_rank _ _ _ _ _ _ Hdm Hp) as [Hrank Hpd].
  set (nix := norm_items (index_items ix) sh).
  assert (Hn : normal_index nix sh) by now apply norm_items_normal.
  assert (Es : n_shape nix sh = []) by (rewrite <- Hnil; now apply norm_items_shape).
  erewrite dm_setitem_run.
  2:{ rewrite normalize_index_ok by assumption. fold nix. cbn [bind].
      rewrite index_strided_ok; [|assumption|assumption|apply make_strides_length]. cbn [bind]. rewrite Z.add_0_l.
      rewrite (dm_iad_ok _ _ _ _ _ _ Hdm), Es.
      rewrite (element_strides nix sh (make_strides sh) Es (make_strides_length sh)).
      apply slice_iad_empty.
      apply Forall_forall. intros e Hin. apply in_map_iff in Hin. destruct Hin as (i & <- & Hi).
      apply In_cart in Hi. now apply in_box_len. }
  set (L := map _ _).
  destruct (overwrites_loop d v) with (L := L) (h := h) (f := g) as (h' & g' & E1 & E2 & E3).
  - intros h0 f0 r H0 Hb. apply IH; auto; [|now apply int_tuple_shape, in_box_len].
    now apply int_tuple_ok, in_box_len.
  - exact Hg.
  - unfold L. rewrite map_map. apply Forall_forall. intros e Hin. apply in_map_iff in Hin.
    destruct Hin as (i & <- & Hi). apply In_cart in Hi. cbn [fst snd]. split; [reflexivity|].
    now apply (dm_box _ _ _ _ _ _ Hdm).
  - exists h', (fun i => g' (dm_index rd rs ro i)). split; [exact E1|].
    split; [exists g'; split; [exact E2|now split]|]. intros i Hi. cbn [shape_of unspecified_of] in *.
    rewrite (Hf i Hi). apply E3; [|now apply (dm_box _ _ _ _ _ _ Hdm)].
    unfold L. rewrite map_map. intros Hnil'. apply map_eq_nil in Hnil'.
    apply In_cart in Hi. rewrite Hnil' in Hi. destruct Hi.
Qed.

(** ** Chains of views *)

Lemma getitems_strided : forall ixs h t l, nth_error h (baddr (sdata t)) = Some l -> strided_ok t l ->
  chain_ok ixs (sshape t) ->
  exists t', getitems h (SStrided t) ixs = Ok (SStrided t', h)
    /\ sshape t' = chain_shape ixs (sshape t)
    /\ baddr (sdata t') = baddr (sdata t)
    /\ strided_ok t' l
    /\ (forall j, in_box j (sshape t') -> spos t' j = spos t (chain_source ixs (sshape t) j)).
Proof.
  induction ixs as [|ix r IH]; intros h t l Hl Ht Hok; cbn [getitems chain_shape chain_source chain_ok] in *.
  - exists t. split; [reflexivity|]. split; [reflexivity|]. split; [reflexivity|]. split; [exact Ht|reflexivity].
  - destruct Hok as (Hp & Hx & Hne & Hr).
    destruct (strided_slice h t l ix Hl Ht Hp Hx Hne) as (t1 & E1 & E2 & E3 & _ & E5 & E6).
    cbn [getitem]. rewrite E1. cbn [bind]. rewrite <- E2 in Hr.
    destruct (IH h t1 l ltac:(now rewrite E3) E5 Hr) as (t' & F1 & F2 & F3 & F4 & F5).
    exists t'. split; [exact F1|]. split; [now rewrite F2, E2|]. split; [congruence|]. split; [exact F4|].
    intros j Hj. rewrite F5 by exact Hj. rewrite <- E2. apply E6.
    apply chain_source_in_box; [exact Hr|]. now rewrite <- F2.
Qed.

Lemma assigns_cell ops : forall h a l, nth_error h a = Some l ->
  exists l', nth_error (assigns h ops) a = Some l' /\ length l' = length l.
Proof.
  induction ops as [|[[s ix] v] r IH]; intros h a l Hl; cbn [assigns]; [eauto|].
  pose proof (setitem_frame s h ix v) as [U1 U2 U3].
  destruct (Nat.eq_dec a (data_addr s)) as [->|Hne].
  - destruct (U3 l Hl) as (l1 & H1 & H2). destruct (IH _ _ _ H1) as (l' & F1 & F2). exists l'. split; [exact F1|congruence].
  - rewrite <- U2 in Hl by exact Hne. exact (IH _ _ _ Hl).
Qed.

(** ** Overlapping self-assignment *)

(** Each value is read before any write to its place. *)
Lemma overlap_loop b t2 : forall L h l,
  nth_error h (baddr b) = Some l -> baddr (sdata t2) = baddr b -> strided_ok t2 l ->
  NoDup (map snd L) ->
  Forall (fun e => fst e <> [] /\ in_box (fst e) (sshape t2) /\ 0 <= boff b + snd e < zlen l) L ->
  (forall L1 vi p L2, L = L1 ++ (vi, p) :: L2 -> forall vi' p', In (vi', p') L1 -> spos t2 vi <> boff b + p') ->
  exists l', write_loop (buf_write b) (SrcSto (SStrided t2)) L h = (set_nth (baddr b) l' h, Ok tt)
    /\ length l' = length l
    /\ (forall vi p, In (vi, p) L ->
          nth (Z.to_nat (boff b + p)) l' VNone = nth (Z.to_nat (spos t2 vi)) l VNone)
    /\ (forall q, 0 <= q -> (forall vi p, In (vi, p) L -> q <> boff b + p) ->
          nth (Z.to_nat q) l' VNone = nth (Z.to_nat q) l VNone).
Proof.
  assert (Hid : forall h a (l : list pyval), nth_error h a = Some l -> set_nth a l h = h).
  { induction h as [|x h IH]; intros [|a] l H; cbn in *; try discriminate; [now injection H as ->|].
    now rewrite IH. }
  assert (Hss : forall a (l1 l2 : list pyval) h, set_nth a l2 (set_nth a l1 h) = set_nth a l2 h).
  { intros a l1 l2. induction a as [|a IH]; intros [|x h]; cbn; try reflexivity. now rewrite IH. }
  induction L as [|[vi p] L IH]; intros h l Hl Hb Ht Hnd Hrng Hord; cbn [write_loop].
  - exists l. rewrite Hid by exact Hl. repeat split; auto. intros vi p [].
  - inversion Hnd as [|? ? Hni Hnd']; subst. inversion Hrng as [|? ? (Hne & Hbox & Hp) Hrng']; subst. cbn [fst snd] in *.
    assert (Hv : get_value h (SrcSto (SStrided t2)) vi = Ok (nth (Z.to_nat (spos t2 vi)) l VNone)).
    { assert (Hr : repr h (SStrided t2) (fun i => nth (Z.to_nat (spos t2 i)) l VNone)).
      { exists l. rewrite Hb. split; [exact Hl|]. split; [exact Ht|reflexivity]. }
      cbn [get_value]. destruct vi; [congruence|]. now rewrite (repr_get _ _ _ _ Hr Hbox). }
    rewrite Hv. unfold buf_write at 1, buf_set. rewrite (cell_ok _ _ _ Hl). cbn [bind].
    rewrite pyset_ok by exact Hp. cbn [bind].
    set (x := nth (Z.to_nat (spos t2 vi)) l VNone) in *.
    set (l1 := set_nth (Z.to_nat (boff b + p)) x l).
    set (h1 := set_nth (baddr b) l1 h).
    assert (Hl1 : length l1 = length l) by apply set_nth_length.
    assert (Hc1 : nth_error h1 (baddr b) = Some l1).
    { apply set_nth_error_same. apply nth_error_Some. congruence. }
    assert (Hn1 : forall q, 0 <= q -> q <> boff b + p -> nth (Z.to_nat q) l1 VNone = nth (Z.to_nat q) l VNone).
    { intros q Hq Hq'. unfold l1. rewrite set_nth_nth by (unfold zlen in Hp; lia).
      replace (Nat.eqb _ _) with false; [reflexivity|]. symmetry. apply Nat.eqb_neq. lia. }
    destruct (IH h1 l1 Hc1 Hb) as (l' & E1 & E2 & E3 & E4).
    + now apply (strided_ok_length t2 l).
    + exact Hnd'.
    + eapply Forall_impl; [|exact Hrng']. intros e He. unfold zlen in *. now rewrite Hl1.
    + intros L1 v2 p2 L2 EL v3 p3 Hin. apply (Hord ((vi, p) :: L1) v2 p2 L2) with (vi' := v3); [now rewrite EL|now right].
    + exists l'. rewrite E1. unfold h1. rewrite Hss. split; [reflexivity|]. split; [congruence|]. split.
      * intros v2 p2 [E|Hin].
        -- injection E as <- <-. rewrite E4; [|lia|].
           ++ unfold l1. rewrite set_nth_nth by (unfold zlen in Hp; lia). now rewrite Nat.eqb_refl.
           ++ intros v3 p3 H3 E. apply Hni. assert (p3 = p) as <- by lia. now apply (in_map snd) in H3.
        -- rewrite (E3 v2 p2 Hin). rewrite Forall_forall in Hrng'. destruct (Hrng' _ Hin) as (_ & B2 & _).
           apply Hn1; [apply (so_pos _ _ Ht _ B2)|].
           apply in_split in Hin. destruct Hin as (L1 & L2 & ->).
           apply (Hord ((vi, p) :: L1) v2 p2 L2 eq_refl vi). now left.
      * intros q Hq Hout. rewrite E4; [|exact Hq|].
        -- apply Hn1; [exact Hq|apply (Hout vi); now left].
        -- intros v3 p3 H3. apply (Hout v3). now right.
Qed.

Lemma sorted_before {A} (R : A -> A -> Prop) L1 x L2 y : StronglySorted R (L1 ++ x :: L2) -> In y L1 -> R y x.
Proof.
  induction L1 as [|z L1 IH]; cbn [app]; intros Hs Hy; [destruct Hy|]. inversion Hs as [|? ? H1 H2]; subst.
  destruct Hy as [->|Hy]; [|now apply IH]. rewrite Forall_forall in H2. apply H2. apply in_or_app. right. now left.
Qed.

Lemma strided_overlap h t l ix1 ix2 t2 : nth_error h (baddr (sdata t)) = Some l -> strided_ok t l ->
  positive (sshape t) -> ok_index ix1 (sshape t) -> ok_index ix2 (sshape t) ->
  slice_shape ix1 (sshape t) = slice_shape ix2 (sshape t) -> slice_shape ix1 (sshape t) <> [] ->
  getitem h (SStrided t) ix2 = Ok (ISto (SStrided t2), h) ->
  (forall j k, in_box j (slice_shape ix1 (sshape t)) -> in_box k (slice_shape ix1 (sshape t)) ->
     row_major_lt j k -> source_index ix1 (sshape t) j <> source_index ix2 (sshape t) k) ->
  exists l', setitem h (SStrided t) ix1 (SrcSto (SStrided t2)) = (set_nth (baddr (sdata t)) l' h, Ok tt)
    /\ length l' = length l
    /\ (forall j, in_box j (slice_shape ix1 (sshape t)) ->
          nth (Z.to_nat (spos t (source_index ix1 (sshape t) j))) l' VNone
          = nth (Z.to_nat (spos t (source_index ix2 (sshape t) j))) l VNone)
    /\ (forall q, 0 <= q -> (forall j, in_box j (slice_shape ix1 (sshape t)) ->
                               q <> spos t (source_index ix1 (sshape t) j)) ->
          nth (Z.to_nat q) l' VNone = nth (Z.to_nat q) l VNone).
Proof.
  intros Hl Ht Hp Hok1 Hok2 Hsh Hne Hg Hord.
  destruct (strided_slice h t l ix2 Hl Ht Hp Hok2 ltac:(congruence)) as (t2' & G1 & G2 & G3 & _ & G5 & G6).
  cbn [getitem] in Hg. rewrite G1 in Hg. cbn [bind] in Hg. injection Hg as ->.
  destruct (strided_positions t l ix1 Ht Hp Hok1) as (L & EL & HL & Hnd & Hrng & Hfst).
  rewrite (strided_setitem_run h t ix1 _ L EL).
  assert (B2 : forall j, in_box j (slice_shape ix1 (sshape t)) -> in_box j (sshape t2)) by (intros j Hj; now rewrite G2, <- Hsh).
  destruct (overlap_loop (sdata t) t2 L h l Hl G3 G5 Hnd) as (l' & E1 & E2 & E3 & E4).
  - apply Forall_forall. intros [vi p] Hin. cbn [fst snd]. pose proof (proj1 (HL vi p) Hin) as [Hb _].
    split; [intros ->; inversion Hb; congruence|]. split; [now apply B2|].
    rewrite Forall_forall in Hrng. exact (Hrng _ Hin).
  - intros L1 vi p L2 E vi' p' Hin Heq.
    assert (I1 : In (vi, p) L) by (rewrite E; apply in_or_app; right; now left).
    assert (I2 : In (vi', p') L) by (rewrite E; apply in_or_app; now left).
    apply HL in I1. apply HL in I2. destruct I1 as [Bv Pv]. destruct I2 as [Bv' Pv'].
    destruct (G6 vi (B2 _ Bv)) as [S1 S2]. rewrite S2, Pv' in Heq. apply (so_inj _ _ Ht) in Heq; auto;
      [|now apply source_index_in_box].
    apply (Hord vi' vi); auto. apply (sorted_before _ (map fst L1) vi (map fst L2)).
    + replace (map fst L1 ++ vi :: map fst L2) with (map fst L) by (rewrite E, map_app; reflexivity).
      rewrite Hfst. apply cart_sorted.
    + now apply (in_map fst) in Hin.
  - exists l'. split; [exact E1|]. split; [exact E2|]. split.
    + intros j Hj. assert (Hin : In (j, spos t (source_index ix1 (sshape t) j) - boff (sdata t)) L).
      { apply HL. split; [exact Hj|lia]. }
      pose proof (E3 _ _ Hin) as X. replace (boff (sdata t) + _) with (spos t (source_index ix1 (sshape t) j)) in X by lia.
      rewrite X. f_equal. f_equal. now apply G6, B2.
    + intros q Hq Hout. apply E4; [exact Hq|]. intros vi p Hin Eq. apply HL in Hin. destruct Hin as [Hb Hpp].
      apply (Hout vi Hb). lia.
Qed.

(** ** Independence *)

(** The data cell is never an index cell. *)
Lemma repr_data_index : forall s h f, repr h s f -> ~ In (data_addr s) (index_addrs s).
Proof.
  induction s as [b|t|sh ind d|sh fi d|sh cr co d|sh ch a b c d|sh rd rsh rs ro d IH];
    intros h f Hr; cbn [data_addr index_addrs].
  - intros [].
  - intros [].
  - destruct Hr as (E & HE & _). cbn in HE. intros [H|[]]. tauto.
  - destruct Hr as (E & HE & _). cbn in HE. intros [H|[]]. tauto.
  - destruct Hr as (E & HE & _). cbn in HE. intros [H|[H|[]]]; tauto.
  - destruct Hr as (E & [] & _).
  - destruct Hr as (g & Hg & _). exact (IH _ _ Hg).
Qed.

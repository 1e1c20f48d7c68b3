(** C55-C57: the two implementations of dimension reduction agree; [==] is
    an equivalence; as_Buffer flattens; arrays of the same data with different
    dimension mappings are equal. *)
From Coq Require Import Sorting.Sorted Permutation ZifyBool.
From Verif Require Import Py SliceTools Basics Storage Enumerate Spec SliceFacts IndexFacts
  CompressFacts ReduceFacts SolverFacts SolveFacts Repr ReprFacts ViewFacts BuildFacts SparseFacts
  ConvFacts FromFacts DMFacts ReadFacts MapFacts ChainFacts WriteFacts EffectFacts EqFacts
  PropRead PropWrite PropEq PropIndex PropSolver PropEnum.

(** ** C55 *)

Lemma reduction_sum_rposition rsh : forall rst rd i,
  reduction_sum rsh rst rd i = get_rposition i rst rsh rd.
Proof.
  induction rsh as [|n rsh IH]; intros rst rd i; [now destruct rst, rd|]. 
  destruct rst as [|s rst], rd as [|d rd]; try reflexivity. cbn [reduction_sum get_rposition].
  destruct (pyget i d); cbn [bind]; [|reflexivity]. rewrite IH. destruct (get_rposition _ _ _ _); cbn [bind]; [|reflexivity].
  do 2 f_equal. lia.
Qed.

Lemma reduction_agrees md : forall i,
  reduction md i = reduce_index (map rg_shape md) (map rg_dims md) (map rg_strides md) (repeat 0 (length md)) i.
Proof.
  unfold reduction. induction md as [|g md IH]; intros i; [reflexivity|]. cbn [mapM map reduce_index length repeat].
  rewrite reduction_sum_rposition. destruct (get_rposition _ _ _ _); cbn [bind]; [|reflexivity].
  rewrite IH. destruct (reduce_index _ _ _ _ _); cbn [bind]; reflexivity.
Qed.

Lemma promotion_groups_none md : forall l, Forall (fun d => d = []) (map rg_dims md) -> promotion_groups md [] l = Ok l.
Proof.
  induction md as [|g md IH]; intros l H; [reflexivity|]. cbn [map promotion_groups] in *. inversion H as [|? ? H1 H2]; subst. rewrite H1. now apply IH.
Qed.
Lemma promotion_groups_missing md : forall l, ~ Forall (fun d => d = []) (map rg_dims md) -> promotion_groups md [] l = Raise IndexError.
Proof.
  induction md as [|g md IH]; intros l H; [exfalso; apply H; constructor|]. cbn [map promotion_groups] in *.
  destruct (rg_dims g) as [|d ds] eqn:E; [|reflexivity]. apply IH. intros F. apply H. now constructor.
Qed.
Lemma promotion_groups_agrees md : forall r l, (length r < length md)%nat -> ~ Forall (fun d => d = []) (skipn (length r) (map rg_dims md)) ->
  promotion_groups md r l
  = promote_groups (map rg_shape md) (map rg_dims md) (map rg_strides md) (repeat 0 (length md)) r l.
Proof.
  induction md as [|g md IH]; intros r l Hr Hn; [reflexivity|].
  destruct r as [|x r]; [cbn [length skipn] in Hn; rewrite promotion_groups_missing by exact Hn; reflexivity|].
  cbn [promotion_groups map promote_groups length repeat]. rewrite Z.sub_0_r.
  destruct (promotion_loop _ _ _ _ _); cbn [bind]; [apply IH; [cbn in Hr; lia|exact Hn]|reflexivity].
Qed.
Lemma promotion_groups_padded md : forall r l, Forall (fun d => d = []) (skipn (length r) (map rg_dims md)) ->
  promotion_groups md r l
  = promote_groups (map rg_shape md) (map rg_dims md) (map rg_strides md) (repeat 0 (length md)) (r ++ repeat 0 (length md - length r)) l.
Proof.
  induction md as [|g md IH]; intros r l Hn; [reflexivity|].
  destruct r as [|x r].
  - cbn [length skipn Nat.sub app] in *. rewrite promotion_groups_none by exact Hn. cbn [repeat map promote_groups] in *. inversion Hn as [|? ? H1 H2]; subst.
    rewrite H1. cbn [promotion_loop bind]. specialize (IH [] l H2). rewrite promotion_groups_none in IH by exact H2. cbn [length app] in IH.
    rewrite Nat.sub_0_r in IH. exact IH.
  - cbn [promotion_groups map promote_groups length repeat app Nat.sub] in *. rewrite Z.sub_0_r.
    destruct (promotion_loop _ _ _ _ _); cbn [bind]; [now apply IH|reflexivity].
Qed.

(** For any shape, dimensions and partitioning that create_reduction_metadata
    accepts: the groups, shapes and strides are those that DM works with; the
    reduced index of any tuple is the same, exceptions included; and so is the
    promoted index of a tuple with an item for every group, when the dimensions
    name as many axes as there are.  With fewer items the results are also the same
    if a group with axes has none; but if only groups without axes have none,
    gcs_basics does not need the missing items. *)
Theorem C55_implementations_agree : forall shape dims partitioning md,
  create_reduction_metadata shape dims partitioning = Ok md ->
  let rdims := cut dims ([0] ++ partitioning ++ [zlen shape]) in
  let zeros := map (fun _ => 0) rdims in
  map rg_dims md = rdims
  /\ make_reduction shape rdims = Ok (reduction_shape md, map rg_shape md, map rg_strides md)
  /\ (forall i, reduction md i = reduce_index (map rg_shape md) rdims (map rg_strides md) zeros i)
  /\ (zlen (concat rdims) = zlen shape -> forall r,
        ((length rdims <= length r)%nat \/ ~ Forall (fun d => d = []) (skipn (length r) rdims) ->
         promotion (zlen shape) md r = promote_index (map rg_shape md) rdims (map rg_strides md) zeros r)
        /\ (Forall (fun d => d = []) (skipn (length r) rdims) ->
            promotion (zlen shape) md r
            = promote_index (map rg_shape md) rdims (map rg_strides md) zeros (r ++ repeat 0 (length rdims - length r)%nat))).
Proof.
  intros shape dims part md H rdims zeros. unfold create_reduction_metadata in H.
  destruct (zlen part + 1 <=? zlen shape); cbn [assert_ bind] in H; [|discriminate]. fold rdims in H.
  assert (K : map rg_dims md = rdims /\ mapM (mapM (pyget shape)) rdims = Ok (map rg_shape md)
              /\ map rg_strides md = map make_strides (map rg_shape md)).
  { clearbody rdims. revert md H. clear. induction rdims as [|g rd IH]; intros md H.
    - injection H as <-. auto.
    - cbn [mapM] in H |- *. destruct (mapM (pyget shape) g) as [rs|]; cbn [bind] in H |- *; [|discriminate].
      destruct (mapM _ rd) as [md'|] eqn:E in H; cbn [bind] in H; [|discriminate]. injection H as <-.
      destruct (IH md' E) as (K1 & K2 & K3). cbn [map rg_dims rg_shape rg_strides]. rewrite K1, K2, K3. cbn [bind]. auto. }
  destruct K as (K1 & K2 & K3). split; [exact K1|]. split; [|split].
  - unfold make_reduction. rewrite K2. cbn [bind]. rewrite K3. unfold reduction_shape. now rewrite map_map.
  - intros i. rewrite reduction_agrees, K1. f_equal. unfold zeros. rewrite <- K1, map_map. clear. induction md; cbn; congruence.
  - intros Hn r. assert (Lm : length md = length rdims) by (rewrite <- K1; now rewrite map_length).
    assert (Z0 : zeros = repeat 0 (length md)) by (unfold zeros; rewrite Lm; clear; induction rdims; cbn; congruence).
    assert (P2 : Forall (fun d => d = []) (skipn (length r) rdims) -> promotion (zlen shape) md r
      = promote_index (map rg_shape md) rdims (map rg_strides md) zeros (r ++ repeat 0 (length rdims - length r)%nat)).
    { intros F. unfold promotion, promote_index. rewrite <- K1 in F. rewrite (promotion_groups_padded md r _ F), K1, Z0, Lm.
      now replace (Z.to_nat (zlen shape)) with (length (concat rdims)) by (unfold zlen in *; lia). }
    split; [|exact P2]. intros [H1|H1].
    + rewrite P2; [replace (length rdims - length r)%nat with O by lia; cbn [repeat]; now rewrite app_nil_r|].
      rewrite skipn_all2 by lia. constructor.
    + unfold promotion, promote_index. assert (H2 : (length r < length md)%nat).
      { rewrite Lm. destruct (Nat.lt_ge_cases (length r) (length rdims)) as [H2|H2]; [exact H2|]. exfalso. apply H1. rewrite skipn_all2 by lia. constructor. }
      rewrite (promotion_groups_agrees md r _ H2), K1, Z0 by (now rewrite K1).
      now replace (Z.to_nat (zlen shape)) with (length (concat rdims)) by (unfold zlen in *; lia).
Qed.
Print Assumptions C55_implementations_agree.

Example C55_case : exists md, create_reduction_metadata [2; 3; 4; 5] [2; 0; 3; 1] [2] = Ok md
  /\ zlen (concat (cut [2; 0; 3; 1] ([0] ++ [2] ++ [4]))) = 4
  /\ reduction md [1; 2; 3; 4] = Ok [7; 14] /\ promotion 4 md [7; 14] = Ok [1; 2; 3; 4].
Proof. eexists. split; [reflexivity|]. vm_compute. repeat split. Qed.

(** A group without axes, and no item for it. *)
Example C55_empty_group : exists md, create_reduction_metadata [2; 3] [0; 1] [2] = Ok md /\ map rg_dims md = [[0; 1]; []]
  /\ promotion 2 md [5] = Ok [1; 2] /\ promote_index (map rg_shape md) (map rg_dims md) (map rg_strides md) [0; 0] [5] = Raise IndexError.
Proof. eexists. split; [reflexivity|]. vm_compute. repeat split. Qed.

(** ** C56 *)

Definition bkey (h : heap) (b : buffer) : option (Z * list pyval * pyval) :=
  match cell h (baddr b) with
  | Ok l => Some (bsize b, pyslice_list l (boff b) (boff b + bsize b), bunspec b)
  | Raise _ => None
  end.

Definition level := (list Z * list (list Z) * list (list Z) * list Z)%type.
Fixpoint skey (h : heap) (s : storage) : list level * nat * list (list Z) * list (option (Z * list pyval * pyval)) :=
  match s with
  | SBuffer b => ([], 0%nat, [], [bkey h b])
  | SStrided t => ([], 1%nat, [sshape t; sstrides t], [bkey h (sdata t)])
  | SCOO sh i d => ([], 2%nat, [sh; sshape i; sstrides i], [bkey h (sdata i); bkey h d])
  | SFlatCOO sh f d => ([], 3%nat, [sh], [bkey h f; bkey h d])
  | SCSR sh c k d => ([], 4%nat, [sh], [bkey h c; bkey h k; bkey h d])
  | SC2SR sh n a b c d => ([], 5%nat, [sh; [n]], [bkey h a; bkey h b; bkey h c; bkey h d])
  | SDM sh rd _ rs ro d => let '(l, n, z, v) := skey h d in ((sh, rd, rs, ro) :: l, n, z, v)
  end.

Lemma buf_eq_key h a b : buf_eq h a b = Ok true <-> bkey h a = bkey h b /\ bkey h a <> None.
Proof.
  unfold buf_eq, bkey. destruct (cell h (baddr a)) as [la|]; cbn [bind]; [|split; [discriminate|intros [_ []]; reflexivity]].
  destruct (cell h (baddr b)) as [lb|]; cbn [bind]; [|split; [discriminate|intros [H _]; discriminate]]. split.
  - intros H. injection H as H. apply andb_prop in H. destruct H as [H H3]. apply andb_prop in H. destruct H as [H1 H2].
    apply Z.eqb_eq in H1. apply veqb_eq in H2. apply veqb_eq in H3. injection H2 as H2. split; [congruence|discriminate].
  - intros [H _]. injection H as H1 H2 H3. unfold vlist_eqb. rewrite H2, H3, !veqb_refl, H1, Z.eqb_refl. reflexivity.
Qed.

Lemma andM_true a b : andM a b = Ok true <-> a = Ok true /\ b = Ok true.
Proof.
  unfold andM. destruct a as [[|]|]; cbn [bind]; split; try tauto; try discriminate; try (intros [H _]; discriminate).
Qed.

Lemma if_true (c : bool) (x : res bool) : (if c then x else Ok false) = Ok true <-> c = true /\ x = Ok true.
Proof. destruct c; split; try tauto; try discriminate. intros [H _]; discriminate. Qed.

Lemma storage_eq_key h s : forall t,
  storage_eq h s t = Ok true <-> skey h s = skey h t /\ ~ In None (snd (skey h s)).
Proof.
  induction s as [b|x|sh i d|sh f d|sh c k d|sh n a b c d|sh rd rsh rs ro d IH]; intros t.
  all: destruct t; cbn [storage_eq skey]; unfold strided_eq.
  all: try (destruct (skey h d) as [[[l0 n0] z0] v0] eqn:Ek).
  all: try (destruct (skey h t) as [[[l1 n1] z1] v1] eqn:Ek1).
  all: rewrite ?andM_true, ?if_true, ?andM_true, ?if_true, ?andb_true_iff, ?lex_eqb_eq, ?zll_eqb_eq, ?Z.eqb_eq, ?buf_eq_key; cbn [snd In].
  all: try (split; [discriminate|intros [H _]; congruence]).
  all: try (split; [intros H; decompose [and] H; clear H; split; [congruence|];
                    let N := fresh in intros N; decompose [or] N; congruence
                   |intros [H1 H2]; injection H1; intros; subst; repeat split; auto; try congruence; intros N; apply H2; rewrite N; tauto]; fail).
  rewrite IH, Ek1. cbn [snd]. split.
  - intros [[[[-> ->] ->] ->] [E N]]. injection E as -> -> -> ->. auto.
  - intros [E N]. injection E as -> -> -> -> -> -> -> ->. auto 10.
Qed.

Lemma bkey_some h b vs : holds h b vs -> bkey h b <> None.
Proof. intros (l & Hl & _). unfold bkey. rewrite (cell_ok _ _ _ Hl). discriminate. Qed.

Lemma key_some h s : forall f, repr h s f -> ~ In None (snd (skey h s)).
Proof.
  induction s as [b|x|sh i d|sh f0 d|sh c k d|sh n a b c d|sh rd rsh rs ro d IH]; intros f Hr; cbn [skey snd In].
  - destruct Hr as (vs & Hh & _). pose proof (bkey_some _ _ _ Hh). tauto.
  - destruct Hr as (l & Hl & _). unfold bkey. rewrite (cell_ok _ _ _ Hl). intros [N|[]]. discriminate.
  - destruct Hr as (E & (_ & _ & _ & H1 & _ & _ & H2 & _) & _).
    pose proof (bkey_some _ _ _ H1). pose proof (bkey_some _ _ _ H2). tauto.
  - destruct Hr as (E & (_ & _ & _ & H1 & H2 & _) & _).
    pose proof (bkey_some _ _ _ H1). pose proof (bkey_some _ _ _ H2). tauto.
  - destruct Hr as (E & (_ & _ & _ & H1 & H2 & H3 & _) & _).
    pose proof (bkey_some _ _ _ H1). pose proof (bkey_some _ _ _ H2). pose proof (bkey_some _ _ _ H3). tauto.
  - destruct Hr as (E & [] & _).
  - destruct Hr as (g & Hg & _). specialize (IH g Hg). destruct (skey h d) as [[[l0 n0] z0] v0]. exact IH.
Qed.

(** [==] is an equivalence relation on well-formed arrays, and [!=] its negation. *)
Theorem C56_reflexive : forall h s, valid h s -> storage_eq h s s = Ok true.
Proof. intros h s [f Hr]. apply storage_eq_key. split; [reflexivity|]. exact (key_some h s f Hr). Qed.
Print Assumptions C56_reflexive.

Theorem C56_symmetric : forall h s t b, valid h s -> valid h t ->
  storage_eq h s t = Ok b -> storage_eq h t s = Ok b.
Proof.
  intros h s t b [f Hs] [g Ht] E. destruct (storage_eq_total t s h g f Ht Hs) as [r Er]. rewrite Er.
  destruct b, r; try reflexivity.
  - exfalso. apply storage_eq_key in E. destruct E as [E N].
    enough (storage_eq h t s = Ok true) by congruence. apply storage_eq_key. split; [congruence|]. now rewrite <- E.
  - exfalso. apply storage_eq_key in Er. destruct Er as [Er N].
    enough (storage_eq h s t = Ok true) by congruence. apply storage_eq_key. split; [congruence|]. now rewrite <- Er.
Qed.
Print Assumptions C56_symmetric.

Theorem C56_transitive : forall h s t r,
  storage_eq h s t = Ok true -> storage_eq h t r = Ok true -> storage_eq h s r = Ok true.
Proof.
  intros h s t r E1 E2. apply storage_eq_key in E1, E2. apply storage_eq_key.
  destruct E1 as [E1 N1], E2 as [E2 N2]. split; [congruence|exact N1].
Qed.
Print Assumptions C56_transitive.

Theorem C56_negation : forall h s t, valid h s -> valid h t ->
  exists b, storage_eq h s t = Ok b /\ storage_ne h s t = Ok (negb b).
Proof.
  intros h s t [f Hs] [g Ht]. destruct (storage_eq_total s t h f g Hs Ht) as [b E]. exists b.
  unfold storage_ne. rewrite E. auto.
Qed.
Print Assumptions C56_negation.

(** Three sparse arrays made separately from one list, and one with another
    unspecified value. *)
Example C56_case :
  let v := VSeq [VSeq [VInt 0; VInt 7; VInt 0]; VSeq [VInt 5; VInt 0; VInt 8]] in
  let make u h := fromobject CCOO h (SrcSeq v) (fo_unspecified (Some u)) in
  ('(a, h) <- make (VInt 0) [] ;; '(b, h) <- make (VInt 0) h ;; '(c, h) <- make (VInt 0) h ;; '(d, h) <- make (VInt 9) h ;;
   mapM (fun p => storage_eq h (fst p) (snd p)) [(a, a); (a, b); (b, a); (b, c); (a, c); (a, d); (d, a)])
  = Ok [true; true; true; true; true; false; false].
Proof. vm_compute. reflexivity. Qed.

(** ** C57 *)

(** Two DM arrays made from the same nested list hold the same elements and are
    equal, whatever the dimensions, partitionings and underlying classes. *)
Theorem C57_mappings_agree : forall h v sh u c1 d1 p1 c2 d2 p2 h1 h2 s1 s2,
  regular sh v -> positive sh ->
  mapping_ok (zlen sh) d1 p1 -> dm_rank_ok c1 (n_groups c1 (zlen sh) p1) ->
  mapping_ok (zlen sh) d2 p2 -> dm_rank_ok c2 (n_groups c2 (zlen sh) p2) ->
  (c1 = CCSR \/ c2 = CCSR -> exists i x, in_box i sh /\ nested_at v i = Some x /\ x <> VNone /\ x <> chosen VNone u) ->
  dm_fromobject h (SrcSeq v) (fo_unspecified u) d1 p1 c1 = Ok (s1, h1) ->
  dm_fromobject h1 (SrcSeq v) (fo_unspecified u) d2 p2 c2 = Ok (s2, h2) ->
  shape_of s1 = sh /\ shape_of s2 = sh
  /\ (forall i, in_box i sh -> get_elem h2 s1 i = get_elem h2 s2 i)
  /\ equal h2 s1 (SrcSto s2) = Ok true.
Proof.
  intros h v sh u c1 d1 p1 c2 d2 p2 h1 h2 s1 s2 Hreg Hp M1 R1 M2 R2 Hc E1 E2.
  destruct (C28_dm_elements c1 h v sh u d1 p1 Hreg Hp M1 R1) as (rd & rsh & rst & ro & d & h1' & F1 & _ & _ & V1 & G1); [auto|].
  destruct (C28_dm_elements c2 h1 v sh u d2 p2 Hreg Hp M2 R2) as (rd' & rsh' & rst' & ro' & d' & h2' & F2 & _ & _ & V2 & G2); [auto|].
  rewrite E1 in F1. injection F1 as -> <-. rewrite E2 in F2. injection F2 as -> <-.
  assert (X : extends h1 h2).
  { assert (Hsrc : source_repr h1 (SrcSeq v) (nested_elem v)) by (exists sh; split; [exact Hreg|reflexivity]).
    pose proof (source_reads h1 (SrcSeq v) (nested_elem v) u Hsrc) as Hreads.
    cbn [get_shape] in Hreads. rewrite (regular_shape sh v Hreg) in Hreads. destruct M2 as [N2 D2 P2].
    pose proof (dm_args_strict (dm_is_buffer c2) _ _ _ N2 D2 P2) as Ha.
    destruct (dm_fromobject_ok c2 h1 (SrcSeq v) (fo_unspecified u) d2 p2 sh _ Hreads Hp Ha)
      as (d0 & h0 & K1 & _ & _ & K4 & _).
    { apply (dm_class_ok_intro c2 sh d2 p2 (chosen VNone u) (fo_value (SrcSeq v) (fo_unspecified u) (nested_elem v))); auto.
      intros Ec. destruct (Hc (or_intror Ec)) as (i & x & Hi & Hx & A1 & A2). exists i. split; [exact Hi|].
      unfold fo_value, nested_elem. rewrite Hx. now apply conv_differs. }
    rewrite K1 in E2. injection E2 as _ _ _ _ _ <-. exact K4. }
  cbn [shape_of]. split; [reflexivity|]. split; [reflexivity|].
  assert (V1' : valid h2 (SDM sh rd rsh rst ro d)) by (destruct V1 as [f Hr]; exists f; now apply (repr_extends h1)).
  assert (Hget : forall i, in_box i sh -> get_elem h2 (SDM sh rd rsh rst ro d) i = get_elem h2 (SDM sh rd' rsh' rst' ro' d') i).
  { intros i Hi. destruct V1 as [f Hr].
    assert (Eh : get_elem h2 (SDM sh rd rsh rst ro d) i = get_elem h1 (SDM sh rd rsh rst ro d) i).
    { rewrite (repr_get h1 _ f i Hr Hi). apply repr_get; [now apply (repr_extends h1)|exact Hi]. }
    rewrite Eh. destruct (G1 i Hi) as (x & Ex & A1 & A2). destruct (G2 i Hi) as (y & Ey & B1 & B2).
    rewrite Ex in Ey. injection Ey as <-. destruct (veqb x VNone) eqn:Ev.
    - apply veqb_eq in Ev. now rewrite A1, B1.
    - assert (N : x <> VNone) by (intros ->; discriminate). now rewrite A2, B2. }
  split; [exact Hget|].
  destruct (C40_dense_partial h2 _ _ V1' V2 I I) as (b & Eb & Hb & _). rewrite Eb. f_equal. apply Hb.
  cbn [shape_of]. split; [reflexivity|exact Hget].
Qed.
Print Assumptions C57_mappings_agree.

Example C57_case :
  ('(s, h) <- dm_fromobject [] (SrcSeq nested_2x2x2) (fo_unspecified (Some (VInt 0))) (Some [2; 0; 1]) (Some [2]) CCSR ;;
   '(t, h1) <- dm_fromobject h (SrcSeq nested_2x2x2) (fo_unspecified (Some (VInt 0))) (Some [1; 0; 2]) (Some [1]) CStrided ;;
   equal h1 s (SrcSto t)) = Ok true.
Proof. vm_compute. reflexivity. Qed.

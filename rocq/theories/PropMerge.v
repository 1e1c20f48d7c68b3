(** C121: as_DM while other threads run. *)
From Verif Require Import Py SliceTools Basics Storage Spec SliceFacts IndexFacts CompressFacts ReduceFacts SolverFacts
  SolveFacts Repr ReprFacts ViewFacts BuildFacts SparseFacts ConvFacts FromFacts MapFacts DMFacts ReadFacts WriteFacts RefineFacts EqFacts ChainFacts
  AliasFacts PropRead PropWrite PropLoop Threads ThreadFacts PropThreads PropRaces PropFlow Copies PropCopies PropSnap Iterate PropMoment Recopy PropRecopy Merge.
From Coq Require Import List Sorted Permutation.
Import ListNotations.

(** * The groups *)
Section Plan.
Variables (is_buffer : bool) (sh : list Z) (dims part : option (list Z)).
Hypothesis Hargs : dm_args is_buffer (zlen sh) dims part.
Let rdims := dm_rdims is_buffer (zlen sh) dims part.
Let pos := promote_index (group_shapes sh rdims) rdims (group_strides sh rdims) (repeat 0 (length rdims)).

Lemma plan_perm : Permutation (concat rdims) (zseq (zlen sh)) /\ rdims <> [] /\ length rdims = S (length (dm_part is_buffer (zlen sh) part)).
Proof.
  destruct Hargs as [Hdims Hsorted Hrange Hcount Hdist].
  assert (Ec : concat rdims = dm_dims (zlen sh) dims).
  { apply concat_cut_partition.
    - unfold zlen at 1. rewrite (Permutation_length Hdims), zseq_length_nat. unfold zlen. lia.
    - split; [exact Hsorted|]. eapply Forall_impl; [|exact Hrange]. cbn. intros; lia. }
  assert (Elen : length rdims = S (length (dm_part is_buffer (zlen sh) part))).
  { unfold rdims, dm_rdims. rewrite cut_length by (cbn; congruence). cbn [app length]. rewrite app_length. cbn [length]. lia. }
  split; [now rewrite Ec|]. split; [destruct rdims; discriminate|exact Elen].
Qed.
Lemma plan_checks : match dm_part is_buffer (zlen sh) part with
                    | [] => true
                    | _ => is_sorted (dm_part is_buffer (zlen sh) part) && forallb (fun p => 0 <? p) (dm_part is_buffer (zlen sh) part)
                           && forallb (fun p => p <? zlen sh) (dm_part is_buffer (zlen sh) part)
                    end = true
  /\ (zlen (dm_part is_buffer (zlen sh) part) + 1 <=? zlen sh) = true /\ distinct_groups [] rdims = true.
Proof.
  destruct Hargs as [Hdims Hsorted Hrange Hcount Hdist].
  rewrite (proj2 (is_sorted_Sorted _) Hsorted).
  assert (F1 : forallb (fun p => 0 <? p) (dm_part is_buffer (zlen sh) part) = true).
  { apply forallb_forall. intros p Hin. rewrite Forall_forall in Hrange. specialize (Hrange p Hin). lia. }
  assert (F2 : forallb (fun p => p <? zlen sh) (dm_part is_buffer (zlen sh) part) = true).
  { apply forallb_forall. intros p Hin. rewrite Forall_forall in Hrange. specialize (Hrange p Hin). lia. }
  rewrite F1, F2. split; [destruct (dm_part is_buffer (zlen sh) part); reflexivity|]. split; [lia|].
  apply (proj2 (distinct_groups_NoDup [] rdims)). split; [exact Hdist|intros ? _ []].
Qed.

Lemma plan_reads read : merge_reads is_buffer read sh dims part = read (group_shape sh rdims) pos.
Proof.
  destruct plan_perm as (Hperm & _). destruct plan_checks as (C1 & C2 & C3). unfold merge_reads.
  fold (dm_dims (zlen sh) dims). fold (dm_part is_buffer (zlen sh) part).
  rewrite C1, C2. cbn [assert_ pbind]. change (cut (dm_dims (zlen sh) dims) ([0] ++ dm_part is_buffer (zlen sh) part ++ [zlen sh])) with rdims.
  rewrite C3. cbn [assert_ pbind]. rewrite make_reduction_ok by now apply perm_axes. cbn [pbind]. now rewrite map_zero.
Qed.

Lemma plan_of fo h src a : fo_get_shape src a = sh -> fo_gsi a = None ->
  exists gsi, (forall r, gsi r = pos r) /\ dm_fromobject_gen is_buffer fo h src a dims part
  = ('(st, h1) <- fo h src (FO (Some (group_shape sh rdims)) (Some gsi) (fo_unspec a)) ;;
     _ <- assert_ (zlen (shape_of st) =? zlen (group_shape sh rdims)) ;;
     Ok (SDM sh rdims (map (gather sh) rdims) (group_strides sh rdims) (repeat 0 (length rdims)) st, h1)).
Proof.
  intros Hsh Hg. destruct plan_perm as (Hperm & Hne & Hlen). destruct plan_checks as (C1 & C2 & C3). unfold dm_fromobject_gen. rewrite Hsh.
  fold (dm_dims (zlen sh) dims). fold (dm_part is_buffer (zlen sh) part).
  rewrite C1, C2. cbn [assert_ bind]. change (cut (dm_dims (zlen sh) dims) ([0] ++ dm_part is_buffer (zlen sh) part ++ [zlen sh])) with rdims.
  rewrite C3. cbn [assert_ bind]. rewrite make_reduction_ok by now apply perm_axes. cbn [bind]. rewrite map_zero, Hg. cbv zeta.
  exists (fun rindex => j <- pos rindex ;; Ok j).
  split; [intros r; destruct (pos r); reflexivity|].
  change (promote_index (group_shapes sh rdims) rdims (group_strides sh rdims) (repeat 0 (length rdims))) with pos.
  destruct (fo h src _) as [[st h1]|e]; [|reflexivity]. cbn [bind].
  replace (zlen (group_shape sh rdims)) with (zlen (dm_part is_buffer (zlen sh) part) + 1)
    by (unfold group_shape; rewrite zlen_map; clear -Hlen; set (P := dm_part is_buffer (zlen sh) part) in *; clearbody P; unfold zlen; rewrite Hlen; lia).
  destruct (zlen (shape_of st) =? zlen (dm_part is_buffer (zlen sh) part) + 1); [|reflexivity]. cbn [assert_ bind].
  rewrite mk_dm_ok by assumption. reflexivity.
Qed.
End Plan.

Lemma Forall2_image {X Y} (P : X -> Y -> Prop) (g : X -> Y) : forall l, (forall x, In x l -> P x (g x)) -> Forall2 P l (map g l).
Proof. induction l as [|x l IH]; intros G; cbn [map]; constructor; [apply G; now left|]. apply IH. intros y Hy. apply G. now right. Qed.
Lemma combine_image {X Y W} (g : X -> Y) : forall (l : list X) (xs : list W), combine (map g l) xs = map (fun p => (g (fst p), snd p)) (combine l xs).
Proof. induction l as [|x l IH]; intros [|y xs]; cbn [map combine fst snd]; try reflexivity. now rewrite IH. Qed.
Lemma Forall2_map_back {X Y W} (P : X -> W -> Prop) (g : Y -> W) : forall l m, Forall2 P l (map g m) -> Forall2 (fun x y => P x (g y)) l m.
Proof. intros l m. revert l. induction m as [|y m IH]; intros l F; cbn [map] in F; inversion F; subst; constructor; auto. Qed.

(** * The reads *)
Section Merge.
Variable H : nat -> heap.
Variable N : nat.
Variable h : heap.

Lemma gather_timely s rdims : valid h s -> times H N h s -> positive (shape_of s) -> shape_of s <> [] -> Permutation (concat rdims) (zseq (zlen (shape_of s))) ->
  let gsh := group_shape (shape_of s) rdims in
  forall n, (n <= N)%nat -> timely H N n (fun n' r => exists xs ms, r = Ok xs /\ length xs = length (cart gsh) /\ in_order n ms n'
     /\ Forall2 (fun m p => get_elem (H m) s (promoted (shape_of s) rdims (fst p)) = Ok (snd p)) ms (combine (cart gsh) xs))
    (gather_t s gsh (promote_index (group_shapes (shape_of s) rdims) rdims (group_strides (shape_of s) rdims) (repeat 0 (length rdims)))).
Proof.
  intros V HT Hp Hne Hperm gsh n Hn. eapply timely_weaken; [exact Hn| |].
  - apply (mapM_read H N s _ (cart gsh) (map (promoted (shape_of s) rdims) (cart gsh)) n Hn). apply Forall2_image. intros r Hr n1 Hn1. apply In_cart in Hr.
    destruct (reduce_promote _ rdims r Hp Hperm Hr) as (i & Ei & Hi & _). unfold promoted. rewrite Ei. cbn [pbind].
    assert (Eg : get_value_t (SrcSto s) i = get_elem_t s i).
    { destruct i; [apply Forall2_len in Hi; destruct (shape_of s); [congruence|discriminate]|reflexivity]. }
    rewrite Eg. now apply (read_timely H N h s i V Hi HT).
  - cbn beta. intros n' r Hn' (xs & ms & E1 & E2 & E3 & E4). exists xs, ms. rewrite map_length in E2. repeat (split; [assumption|]).
    rewrite combine_image in E4. exact (Forall2_map_back _ _ _ _ E4).
Qed.
End Merge.

(** The new array. *)
Lemma merged c h s dims part u xs : positive (shape_of s) -> c <> CDM ->
  dm_args (dm_is_buffer c) (zlen (shape_of s)) dims part ->
  let rdims := dm_rdims (dm_is_buffer c) (zlen (shape_of s)) dims part in
  let gsh := group_shape (shape_of s) rdims in
  let u' := chosen (unspecified_of s) u in
  length xs = length (cart gsh) ->
  class_ok c gsh u' (fun r => conv_value (unspecified_of s) u' (lookup (combine (cart gsh) xs) VNone r)) ->
  exists d h', merge_of c s dims part u xs h = Ok (SDM (shape_of s) rdims (map (gather (shape_of s)) rdims) (group_strides (shape_of s) rdims) (repeat 0 (length rdims)) d, h')
    /\ is_class c d /\ unspecified_of d = u' /\ extends h h' /\ fresh h d
    /\ repr h' (SDM (shape_of s) rdims (map (gather (shape_of s)) rdims) (group_strides (shape_of s) rdims) (repeat 0 (length rdims)) d)
         (fun i => conv_value (unspecified_of s) u' (lookup (combine (cart gsh) xs) VNone (dm_index rdims (group_strides (shape_of s) rdims) (repeat 0 (length rdims)) i))).
Proof.
  intros Hp Hc Ha rdims gsh u' L HC. destruct (plan_perm _ _ _ _ Ha) as (Hperm & Hne & _). fold rdims in Hperm, Hne.
  assert (Hg : positive gsh) by (apply group_shape_positive; [exact Hp|now apply perm_axes]).
  assert (Hnn : nonneg gsh) by (eapply Forall_impl; [|exact Hg]; cbn; intros; lia).
  unfold merge_of. fold (dm_is_buffer c).
  match goal with |- context [dm_fromobject_gen _ ?fo0 _ _ _ _ _] => set (fo := fo0) end.
  destruct (plan_of (dm_is_buffer c) (shape_of s) dims part Ha fo h (SrcSto s) (FO (Some (shape_of s)) None u) eq_refl eq_refl) as (gsi & _ & ->).
  fold rdims. fold gsh. unfold fo. cbn [fo_get_shape fo_shape fo_unspec get_unspecified].
  change (fo_get_unspec (SrcSto s) (FO (Some gsh) (Some gsi) u)) with u'.
  destruct (build_values c h gsh (unspecified_of s) u' (lookup (combine (cart gsh) xs) VNone) (value_read (cart gsh) xs) Hc Hnn) as (d & h' & E1 & E2 & E3 & E4 & E5 & E6 & E7).
  - intros r Hr. apply In_cart in Hr. destruct (in_keys _ xs r L Hr) as (x & Hx). pose proof (sorted_NoDup _ (cart_sorted gsh)) as ND.
    rewrite (value_read_pair _ _ _ _ ND Hx). f_equal. symmetry. apply In_lookup; [now rewrite combine_fst|exact Hx].
  - exact HC.
  - rewrite E1. cbn [bind]. rewrite E3, Z.eqb_refl. cbn [assert_ bind]. exists d, h'. split; [reflexivity|]. split; [exact E2|]. split; [exact E4|]. split; [exact E5|]. split; [exact E6|].
    cbn [repr]. eexists. split; [exact E7|]. rewrite E3. split; [now apply group_dm_ok|]. reflexivity.
Qed.

(** If no other thread runs, this is as_DM. *)
Lemma mapping_args c n dims part : mapping_ok n dims part -> dm_args (dm_is_buffer c) n dims part.
Proof. intros [Hn Hd Hp]. now apply dm_args_strict. Qed.

Lemma from_build c h s gsh gsi u : c <> CDM -> flat_fromobject c h (SrcSto s) (FO (Some gsh) (Some gsi) u)
  = build c (fo_get h (SrcSto s) (FO (Some gsh) (Some gsi) u)) gsh (unspecified_of s) (chosen (unspecified_of s) u) h.
Proof.
  intros Hc. destruct c; try congruence; cbn [flat_fromobject build]; unfold csr_fromobject, coo_fromobject, flatcoo_fromobject, strided_fromobject, buffer_fromobject;
    destruct s; reflexivity.
Qed.

Theorem C121_alone : forall c h s dims part u,
  valid h s -> positive (shape_of s) -> mapping_ok (zlen (shape_of s)) dims part -> c <> CDM ->
  exists xs, run (merge_t c s dims part) h = (h, Ok xs) /\ merge_of c s dims part u xs h = as_DM h s dims part c u.
Proof.
  intros c h s dims part u V Hp Hm Hc. pose proof (mapping_args c _ _ _ Hm) as Ha.
  assert (Hne : shape_of s <> []) by (intros E; pose proof (mo_axes _ _ _ Hm) as X; rewrite E in X; discriminate).
  set (rdims := dm_rdims (dm_is_buffer c) (zlen (shape_of s)) dims part).
  destruct (plan_perm _ _ _ _ Ha) as (Hperm & _). fold rdims in Hperm.
  assert (T : times (fun _ => h) 0 h s) by (intros n _; apply keeps_refl).
  pose proof (gather_timely (fun _ => h) 0 h s rdims V T Hp Hne Hperm 0%nat ltac:(lia)) as X. cbv zeta in X.
  destruct (run_timely h 0 _ _ 0%nat ltac:(lia) X) as (r & Er & (xs & ms & -> & L & _ & F)). clear X.
  exists xs. split.
  - unfold merge_t. fold (dm_is_buffer c). rewrite (plan_reads (dm_is_buffer c) (shape_of s) dims part Ha). exact Er.
  - unfold merge_of, as_DM. fold (dm_is_buffer c).
    replace (dm_fromobject h (SrcSto s) (FO (Some (shape_of s)) None u) dims part c)
      with (dm_fromobject_gen (dm_is_buffer c) (flat_fromobject c) h (SrcSto s) (FO (Some (shape_of s)) None u) dims part) by (destruct c; try congruence; reflexivity).
    match goal with |- dm_fromobject_gen _ ?fo0 _ _ _ _ _ = _ => set (fo := fo0) end.
    destruct (plan_of (dm_is_buffer c) (shape_of s) dims part Ha fo h (SrcSto s) (FO (Some (shape_of s)) None u) eq_refl eq_refl) as (gsi & _ & ->).
    destruct (plan_of (dm_is_buffer c) (shape_of s) dims part Ha (flat_fromobject c) h (SrcSto s) (FO (Some (shape_of s)) None u) eq_refl eq_refl) as (gsi2 & Eg & ->).
    fold rdims in Eg |- *. cbn [fo_unspec]. set (gsh := group_shape (shape_of s) rdims) in *.
    assert (E : fo h (SrcSto s) (FO (Some gsh) (Some gsi) u) = flat_fromobject c h (SrcSto s) (FO (Some gsh) (Some gsi2) u)); [|now rewrite E].
    rewrite from_build by exact Hc. unfold fo. cbn [fo_get_shape fo_shape get_unspecified].
    change (fo_get_unspec (SrcSto s) (FO (Some gsh) (Some gsi) u)) with (chosen (unspecified_of s) u).
    apply build_eq. intros r Hr. destruct (in_keys _ xs r L Hr) as (x & Hx). pose proof (sorted_NoDup _ (cart_sorted gsh)) as ND.
    rewrite (value_read_pair _ _ _ _ ND Hx). unfold fo_get. cbn [fo_gsi]. rewrite Eg. apply In_cart in Hr.
    destruct (reduce_promote _ rdims r Hp Hperm Hr) as (i & Ei & Hi & _). rewrite Ei. cbn [bind].
    destruct (Forall2_in_r _ _ _ _ F Hx) as (m & _ & Gm). cbn [fst snd] in Gm. unfold promoted in Gm. rewrite Ei in Gm. rewrite <- Gm. symmetry.
    destruct i; [apply Forall2_len in Hi; destruct (shape_of s); [congruence|discriminate]|reflexivity].
Qed.
Print Assumptions C121_alone.

(** * With other threads *)
Lemma leaves_gather l s gsh gsi : leaves l (gather_t s gsh gsi).
Proof.
  apply w_mapM. intros r. destruct (gsi r) as [i|e]; [|exact I]. cbn [pbind get_value_t]. destruct i; [exact I|]. apply w_get_elem. auto.
Qed.

(** One thread calls s.as_DM(dimensions, partitioning, storage_class, unspecified);
    the others may do anything except put things into the lists with the indices of
    [s].  It ends with a DM array of the shape of [s] over lists of its own; each
    element is the one [s] has at some moment, with the new unspecified value in
    place of the old one; the moments are in the order of the places in the
    reduced array.  If CSR is asked for, one of the values read has to be kept. *)
Theorem C121_values : forall B (give : list pyval -> B) sched h ts j s c dims part u h' ts' r,
  valid h s -> positive (shape_of s) -> mapping_ok (zlen (shape_of s)) dims part ->
  dm_rank_ok c (n_groups c (zlen (shape_of s)) part) -> c <> CDM ->
  nth_error ts j = Some (ends_with (merge_t c s dims part) give) ->
  (forall k t, k <> j -> nth_error ts k = Some t -> leaves (index_addrs s) t) ->
  exec sched h ts = (h', ts') -> nth_error ts' j = Some (Ret r) ->
  let u' := chosen (unspecified_of s) u in
  exists xs, r = Ok (give xs)
  /\ (forall i, in_box i (shape_of s) -> exists x n, In x xs /\ (n <= length sched)%nat /\ get_elem (moment sched h ts n) s i = Ok x)
  /\ ((c = CCSR -> Exists (fun x => x <> unspecified_of s /\ x <> u') xs) ->
      exists rd rsh rst ro d h'' (w : list Z -> nat),
        let s' := SDM (shape_of s) rd rsh rst ro d in
        merge_of c s dims part u xs h' = Ok (s', h'')
        /\ is_class c d /\ unspecified_of s' = u' /\ valid h'' s' /\ extends h' h'' /\ fresh h' s'
        /\ (forall i, (w i <= length sched)%nat)
        /\ (forall i i', lex_leb (dm_index rd rst ro i) (dm_index rd rst ro i') = true -> (w i <= w i')%nat)
        /\ forall i, in_box i (shape_of s) -> exists x, get_elem (moment sched h ts (w i)) s i = Ok x
             /\ get_elem h'' s' i = Ok (if veqb x (unspecified_of s) then u' else x)).
Proof.
  intros B give sched h ts j s c dims part u h' ts' r V Hp Hm Hrk Hc Ej Ho E Er u'.
  pose proof (mapping_args c _ _ _ Hm) as Ha.
  assert (Hne : shape_of s <> []) by (intros X; pose proof (mo_axes _ _ _ Hm) as Y; rewrite X in Y; discriminate).
  set (rdims := dm_rdims (dm_is_buffer c) (zlen (shape_of s)) dims part). set (gsh := group_shape (shape_of s) rdims).
  destruct (plan_perm _ _ _ _ Ha) as (Hperm & Hnr & _). fold rdims in Hperm, Hnr.
  assert (Em : merge_t c s dims part = gather_t s gsh (promote_index (group_shapes (shape_of s) rdims) rdims (group_strides (shape_of s) rdims) (repeat 0 (length rdims)))).
  { unfold merge_t. fold (dm_is_buffer c). exact (plan_reads (dm_is_buffer c) (shape_of s) dims part Ha (gather_t s)). }
  assert (F : Forall (leaves (index_addrs s)) ts).
  { apply Forall_forall. intros t Ht. apply In_nth_error in Ht as (k & Hk). destruct (Nat.eq_dec k j) as [->|Nk]; [|now apply (Ho k)].
    rewrite Ej in Hk. injection Hk as <-. apply leaves_end. rewrite Em. apply leaves_gather. }
  set (N := length sched). set (H := moment sched h ts). assert (T : times H N h s) by (intros n _; now apply moment_keeps).
  set (Q := fun n' (r : res (list pyval)) => exists xs ms, r = Ok xs /\ length xs = length (cart gsh) /\ in_order 0 ms n'
     /\ Forall2 (fun m p => get_elem (H m) s (promoted (shape_of s) rdims (fst p)) = Ok (snd p)) ms (combine (cart gsh) xs)).
  assert (X : exists xs, r = Ok (give xs) /\ Q N (Ok xs)).
  { refine (exec_timely (fun n' r => exists xs, r = Ok (give xs) /\ Q n' (Ok xs)) H N j _ sched h ts 0%nat _ r eq_refl (fun k _ => eq_refl) Ej _ _).
    - intros n n' r' Hn (xs & X1 & xs' & ms & X2 & X3 & X4 & X5). exists xs. split; [exact X1|]. exists xs', ms. repeat (split; [assumption|]). split; [|exact X5].
      apply in_order_to with n; [lia|exact X4].
    - eapply timely_bind with (Q1 := Q); [lia|rewrite Em; exact (gather_timely H N h s rdims V T Hp Hne Hperm 0%nat ltac:(lia))| |].
      + intros n' xs Hn' G. cbn [timely]. exists xs. now split.
      + intros n' e Hn' (xs' & ms & X1 & _). discriminate.
    - rewrite E. exact Er. }
  destruct X as (xs & -> & xs' & ms & E0 & L & O & FF). injection E0 as <-. exists xs. split; [reflexivity|].
  pose proof (sorted_NoDup _ (cart_sorted gsh)) as ND.
  destruct (pick _ N (cart gsh) xs ms 0%nat (cart_sorted gsh) O FF) as (w & W1 & W2 & W3).
  assert (W4 : forall i, in_box i (shape_of s) -> exists x, In (group_index (shape_of s) rdims i, x) (combine (cart gsh) xs)
    /\ get_elem (H (w (group_index (shape_of s) rdims i))) s i = Ok x).
  { intros i Hi. assert (Hq : In (group_index (shape_of s) rdims i) (cart gsh)).
    { apply In_cart. rewrite <- dm_index_group. apply (dm_box _ _ _ _ _ _ (group_dm_ok _ rdims Hp Hnr Hperm) i Hi). }
    destruct (in_keys _ xs _ L Hq) as (x & Hx). exists x. split; [exact Hx|]. pose proof (W3 _ Hx) as G. cbn [fst snd] in G. unfold promoted in G.
    now rewrite (promote_reduce _ rdims i Hperm Hi) in G. }
  split.
  { intros i Hi. destruct (W4 i Hi) as (x & Hx & G). eexists x, _. split; [now apply in_combine_r in Hx|]. split; [apply (W1 (group_index (shape_of s) rdims i))|exact G]. }
  intros Hcsr.
  destruct (merged c h' s dims part u xs Hp Hc Ha L) as (d & h'' & M1 & M2 & M3 & M4 & M5 & M6).
  { fold rdims. fold gsh. fold u'. pose proof (rdims_length c (zlen (shape_of s)) dims part) as Hl. fold rdims in Hl. rewrite <- Hl in Hrk.
    assert (Hgl : length gsh = length rdims) by apply map_length. unfold zlen in Hrk.
    destruct c; cbn [class_ok dm_rank_ok] in *; try contradiction; try congruence; try exact I; try lia.
    - intros X. rewrite X in Hgl. destruct rdims; [congruence|discriminate].
    - intros X. rewrite X in Hgl. destruct rdims; [congruence|discriminate].
    - split; [lia|]. specialize (Hcsr eq_refl). apply Exists_exists in Hcsr as (x & Hx & N1 & N2).
      destruct (In_nth _ _ VNone Hx) as (k & Hk & <-). exists (nth k (cart gsh) []). rewrite L in Hk. split; [now apply In_cart, nth_In|].
      rewrite lookup_combine by assumption. unfold conv_value. destruct (veqb (nth k xs VNone) (unspecified_of s)) eqn:Ev; [apply veqb_eq in Ev; contradiction|exact N2]. }
  fold rdims in M1, M6. fold gsh in M6. fold u' in M3, M6.
  eexists rdims, _, _, _, d, h'', (fun i => w (dm_index rdims (group_strides (shape_of s) rdims) (repeat 0 (length rdims)) i)).
  cbv zeta. split; [exact M1|]. split; [exact M2|]. split; [exact M3|]. split; [eexists; exact M6|]. split; [exact M4|]. split; [exact M5|].
  split; [intros i; apply W1|]. split; [intros i i'; apply W2|].
  intros i Hi. rewrite (repr_get _ _ _ _ M6) by exact Hi. rewrite !dm_index_group.
  destruct (W4 i Hi) as (x & Hx & G). exists x. split; [exact G|]. do 2 f_equal.
  rewrite (In_lookup (combine (cart gsh) xs) VNone _ x); [reflexivity|now rewrite combine_fst|exact Hx].
Qed.
Print Assumptions C121_values.

(** If the others leave all lists of [s] alone, the values read are those as_DM
    reads without them. *)
Theorem C121_still : forall B (give : list pyval -> B) sched h ts j s c dims part u h' ts' r,
  valid h s -> positive (shape_of s) -> mapping_ok (zlen (shape_of s)) dims part ->
  dm_rank_ok c (n_groups c (zlen (shape_of s)) part) -> c <> CDM ->
  let u' := chosen (unspecified_of s) u in
  (c = CCSR -> some_element_stays h s u') ->
  nth_error ts j = Some (ends_with (merge_t c s dims part) give) ->
  (forall k t, k <> j -> nth_error ts k = Some t -> leaves (addrs s) t) ->
  exec sched h ts = (h', ts') -> nth_error ts' j = Some (Ret r) ->
  exists xs s' h'' s1 h1, r = Ok (give xs) /\ merge_of c s dims part u xs h' = Ok (s', h'')
    /\ as_DM h s dims part c u = Ok (s1, h1)
    /\ shape_of s' = shape_of s1 /\ unspecified_of s' = unspecified_of s1
    /\ forall i, in_box i (shape_of s) -> get_elem h'' s' i = get_elem h1 s1 i.
Proof.
  intros B give sched h ts j s c dims part u h' ts' r V Hp Hm Hrk Hc u' Hst Ej Ho E Er.
  assert (Hidx : forall k t, k <> j -> nth_error ts k = Some t -> leaves (index_addrs s) t).
  { intros k x Nk Hk. eapply within_mono; [| |exact (Ho k x Nk Hk)]; cbv beta; [auto|]. intros a _ Ha Hi. apply Ha. now apply index_in_addrs. }
  destruct (C121_values B give sched h ts j s c dims part u h' ts' r V Hp Hm Hrk Hc Ej Hidx E Er) as (xs & Er' & K0 & K).
  assert (F : Forall (leaves (addrs s)) ts).
  { apply Forall_forall. intros t Ht. apply In_nth_error in Ht as (k & Hk). destruct (Nat.eq_dec k j) as [->|Nk]; [|now apply (Ho k)].
    rewrite Ej in Hk. injection Hk as <-. apply leaves_end. unfold merge_t. fold (dm_is_buffer c).
    rewrite (plan_reads (dm_is_buffer c) (shape_of s) dims part (mapping_args c _ _ _ Hm) (gather_t s)). apply leaves_gather. }
  assert (Fr : forall n i x, get_elem (moment sched h ts n) s i = Ok x -> get_elem h s i = Ok x).
  { intros n i x. apply get_elem_frame. intros a Ha. unfold moment. destruct (exec (firstn n sched) h ts) as [h2 ts2] eqn:E1. cbn [fst]. symmetry. now apply (exec_leaves _ _ _ _ _ _ F E1). }
  destruct (C24_as_DM h s dims part c u V Hp Hm Hrk Hst) as (s1 & h1 & C1 & _ & C3 & _ & _ & C5 & C6).
  destruct K as (rd & rsh & rst & ro & d & h'' & w & K1 & K2 & K3 & K4 & _ & _ & K5 & _ & K6).
  { intros Ec. destruct (Hst Ec) as (i & x & Hi & Hx & N1 & N2). apply Exists_exists. destruct (K0 i Hi) as (x' & n & Hin & _ & G). apply Fr in G.
    rewrite Hx in G. injection G as <-. exists x. auto. }
  exists xs. eexists _, h'', s1, h1. split; [exact Er'|]. split; [exact K1|]. split; [exact C1|]. split; [now rewrite C5|]. split; [now rewrite C3|].
  intros i Hi. destruct (K6 i Hi) as (x & G & ->). apply Fr in G. destruct (C6 i Hi) as (y & Y1 & Y2 & Y3). rewrite G in Y1. injection Y1 as <-.
  destruct (veqb x (unspecified_of s)) eqn:Ev.
  - apply veqb_eq in Ev. now rewrite Y2.
  - rewrite Y3; [reflexivity|]. intros Ex. rewrite Ex, veqb_refl in Ev. discriminate.
Qed.
Print Assumptions C121_still.

(** The elements of the new array need not be ones [s] has together, and as they
    are read in the order of the reduced array, a permutation of the axes decides
    which mixture it is: one thread assigns [5, 6, 7, 8] to the elements of
    [[1, 2], [3, 4]] one after the other, and after its second assignment the
    first two elements have been read. *)
Definition square : storage := SStrided (Str [2; 2] [2; 1] (Buf 4 0 0 VNone)).
Definition square_row : storage := SStrided (Str [4] [1] (Buf 4 0 0 VNone)).
Definition square_lists : heap := [map VInt [1; 2; 3; 4]].
Definition square_writes : list (prog (list pyval)) := [thread [Assign square_row everything (SrcSeq (VSeq (map VInt [5; 6; 7; 8])))]].
Lemma square_valid : valid square_lists square.
Proof.
  eexists (fun i => nth (Z.to_nat (spos (Str [2; 2] [2; 1] (Buf 4 0 0 VNone)) i)) (map VInt [1; 2; 3; 4]) VNone). exists (map VInt [1; 2; 3; 4]). split; [reflexivity|].
  split; [|reflexivity]. constructor; cbn [sshape sstrides sdata bsize boff]; try lia; try (cbn; lia); try reflexivity; try (repeat constructor; lia).
  - intros i Hi. inversion Hi as [|x ? r ? Hx Hr]; subst. inversion Hr as [|y ? r' ? Hy Hr']; subst. inversion Hr'; subst. unfold spos. cbn -[Z.mul Z.add]. lia.
  - intros i j Hi Hj. inversion Hi as [|x ? r ? Hx Hr]; subst. inversion Hr as [|y ? r' ? Hy Hr']; subst. inversion Hr'; subst.
    inversion Hj as [|z ? t ? Hz Ht]; subst. inversion Ht as [|v ? t' ? Hv Ht']; subst. inversion Ht'; subst. unfold spos. cbn -[Z.mul Z.add]. intros Ex.
    assert (x = z /\ y = v) as [-> ->] by lia. reflexivity.
Qed.
Definition merge_thread (dims : list Z) : prog (list pyval) := ends_with (merge_t CStrided square (Some dims) (Some [1])) as_read.
Definition merged_with (dims : list Z) (els : list pyval) : Prop :=
  exists h' ts' xs s' h'', exec [0; 0; 1; 1; 1; 1; 0; 0]%nat square_lists (merge_thread dims :: square_writes) = (h', Ret (Ok (as_read xs)) :: ts')
    /\ merge_of CStrided square (Some dims) (Some [1]) None xs h' = Ok (s', h'')
    /\ map (get_elem h'' s') (cart [2; 2]) = map Ok els.
Theorem C121_mixture : merged_with [0; 1] (map VInt [1; 2; 7; 8]) /\ merged_with [1; 0] (map VInt [1; 6; 3; 8])
  /\ forall n, map (get_elem (moment [0; 0; 1; 1; 1; 1; 0; 0]%nat square_lists (merge_thread [1; 0] :: square_writes) n) square) (cart [2; 2])
               <> map Ok (map VInt [1; 6; 3; 8]).
Proof.
  split; [|split].
  - eexists _, _, (map VInt [1; 2; 7; 8]), _, _. split; [vm_compute; reflexivity|]. split; [vm_compute; reflexivity|]. vm_compute. reflexivity.
  - eexists _, _, (map VInt [1; 3; 6; 8]), _, _. split; [vm_compute; reflexivity|]. split; [vm_compute; reflexivity|]. vm_compute. reflexivity.
  - intros n. do 8 (destruct n as [|n]; [vm_compute; discriminate|]). unfold moment. rewrite firstn_all2 by (cbn; lia). vm_compute. discriminate.
Qed.
Print Assumptions C121_mixture.

(** The hypotheses of C121_values hold for this array and thread, and for a COO
    array that is converted to a DM array over a CSR array (the element assignment
    overwrites all stored elements: C116). *)
Definition wide_coo : storage := SCOO [2; 3] (Str [2; 2] [2; 1] (Buf 4 0 1 VNone)) (Buf 2 0 0 (VInt 0)).
Definition wide_lists : heap := [map VInt [10; 20]; map VInt [0; 1; 2; 1]].
Example C121_case :
  (valid square_lists square /\ positive (shape_of square) /\ mapping_ok (zlen (shape_of square)) (Some [1; 0]) (Some [1])
   /\ dm_rank_ok CStrided (n_groups CStrided 2 (Some [1])) /\ Forall (leaves (index_addrs square)) square_writes)
  /\ (valid wide_lists wide_coo /\ positive (shape_of wide_coo) /\ mapping_ok (zlen (shape_of wide_coo)) None None
      /\ dm_rank_ok CCSR (n_groups CCSR 2 None) /\ some_element_stays wide_lists wide_coo (VInt 0))
  /\ exists sched h' ts' xs s' h'',
       exec sched wide_lists [ends_with (merge_t CCSR wide_coo None None) as_read; thread [Assign wide_coo (XTuple [IInt 1; IInt 1]) (SrcSeq (VInt 7))]] = (h', Ret (Ok (as_read xs)) :: ts')
       /\ merge_of CCSR wide_coo None None None xs h' = Ok (s', h'')
       /\ map (get_elem h'' s') (cart [2; 3]) = map Ok (map VInt [0; 0; 7; 0; 7; 0]).
Proof.
  split; [|split].
  - split; [exact square_valid|]. split; [repeat constructor; lia|]. split; [|split; [exact I|]].
    + constructor; [reflexivity| |]; intros p [= <-]; [apply perm_swap|]. split; [repeat constructor|repeat constructor; cbn; lia].
    + constructor; [|constructor]. apply leaves_thread. intros a _ [].
  - assert (K : entries wide_lists wide_coo [([0; 2], VInt 10); ([1; 1], VInt 20)]).
    { split; [repeat constructor; lia|]. split; [discriminate|]. split; [split; [repeat constructor; cbn; lia|repeat constructor; cbn; lia]|].
      split; [eexists; repeat split; try reflexivity; cbn; lia|]. split; [reflexivity|]. split; [reflexivity|].
      split; [eexists; repeat split; try reflexivity; cbn; lia|]. split; [discriminate|reflexivity]. }
    split; [exact (ex_intro _ _ (repr_entries _ _ _ K))|]. split; [repeat constructor; lia|]. split; [constructor; [reflexivity|discriminate|discriminate]|].
    split; [reflexivity|]. exists [0; 2], (VInt 10). split; [repeat constructor; lia|]. split; [vm_compute; reflexivity|]. split; discriminate.
  - exists (repeat 1 30 ++ repeat 0 60)%nat. eexists _, _, _, _, _. split; [vm_compute; reflexivity|]. split; [vm_compute; reflexivity|]. vm_compute. reflexivity.
Qed.

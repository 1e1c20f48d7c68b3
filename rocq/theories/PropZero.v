(** C05 for arrays: a slice with step 0 is read and assigned as an empty slice. *)
From Coq Require Import Sorting.Sorted Permutation ZifyBool.
From Verif Require Import Py SliceTools Basics Storage Spec SliceFacts IndexFacts
  CompressFacts ReduceFacts SolverFacts SolveFacts Repr ReprFacts ViewFacts BuildFacts SparseFacts
  ConvFacts FromFacts DMFacts ReadFacts MapFacts ChainFacts WriteFacts EffectFacts EqFacts PropRead PropWrite PropMore PropEq PropEdge PropCuts PropTurns.

(** ** Specification *)

(** The index with [0:0] in place of each slice whose step is 0. *)
Definition zero_item (i : ind) : ind :=
  match i with ISlice (Sl _ _ (Some 0)) => ISlice (Sl (Some 0) (Some 0) None) | _ => i end.
Definition zeroed (ix : pyindex) : pyindex :=
  match ix with XItem i => XItem (zero_item i) | XTuple l => XTuple (map zero_item l) end.

(** ** Proofs *)

Lemma zero_slice s n : 0 <= n -> match zero_item (ISlice s) with ISlice s' => reduced s' n = reduced s n | _ => False end.
Proof.
  intros Hn. destruct s as [a b [[|p|p]|]]; cbn [zero_item]; try reflexivity.
  rewrite (reduced_step0 (Sl a b (Some 0)) n eq_refl Hn). unfold reduced. cbn [sl_start sl_stop sl_step].
  replace (0 <? 1) with true by lia. replace (0 <? - n) with false by lia. replace (n <? 0) with false by lia.
  replace (0 <? 0) with false by lia. cbv beta iota zeta. replace ((0 - 0) * _ <=? 0) with true by lia. reflexivity.
Qed.
Lemma zero_tuple : forall l sh, nonneg sh -> normalize_tuple (map zero_item l) sh = normalize_tuple l sh.
Proof.
  induction l as [|i l IH]; intros sh Hn; [reflexivity|]. destruct sh as [|n sh].
  - cbn [map normalize_tuple]. destruct i as [z|s| |]; try reflexivity; [|apply IH; constructor].
    pose proof (zero_slice s 0 ltac:(lia)) as Z. destruct (zero_item (ISlice s)) eqn:E; try contradiction. reflexivity.
  - inversion Hn as [|? ? Hx Hr]; subst. cbn [map normalize_tuple]. rewrite ?(IH sh Hr). destruct i as [z|s| |]; try reflexivity.
    pose proof (zero_slice s n Hx) as Z. destruct (zero_item (ISlice s)) eqn:E; try contradiction. now rewrite Z.
Qed.
Lemma zero_normalize ix sh : nonneg sh -> normalize_index (zeroed ix) sh = normalize_index ix sh.
Proof.
  intros Hn. destruct ix as [i|l]; cbn [zeroed]; [|now apply zero_tuple].
  destruct i as [z|s| |]; try reflexivity. destruct sh as [|n sh].
  - pose proof (zero_slice s 0 ltac:(lia)) as Z. destruct (zero_item (ISlice s)) eqn:E; try contradiction. reflexivity.
  - inversion Hn as [|? ? Hx Hr]; subst. pose proof (zero_slice s n Hx) as Z.
    destruct (zero_item (ISlice s)) eqn:E; try contradiction. cbn [normalize_index]. now rewrite Z.
Qed.

(** Reading and assigning an array with step 0 is reading and assigning it with
    an empty slice. *)
Theorem C05_arrays_refuted : forall h s ix value, valid h s ->
  match s with SBuffer _ => False | _ => True end ->
  getitem h s ix = getitem h s (zeroed ix) /\ setitem h s ix value = setitem h s (zeroed ix) value.
Proof.
  intros h s ix value [f Hf] Nb. pose proof (repr_nonneg h s f Hf) as Hn. pose proof (zero_normalize ix _ Hn) as Z.
  destruct s; try contradiction; cbn [shape_of] in *; (split; [cbn [getitem shape_of]|cbn [setitem shape_of]]); rewrite ?Z; try reflexivity.
  unfold strided_getitem. now rewrite Z.
Qed.
Print Assumptions C05_arrays_refuted.

Lemma empty_list {A B} (L : list (A * B)) (P : A -> B -> Prop) : (forall j p, In (j, p) L <-> P j p) -> (forall j p, ~ P j p) -> L = [].
Proof. intros H N. destruct L as [|[j p] L]; [reflexivity|]. exfalso. apply (N j p), H. now left. Qed.

(** A slice of the first axis with step 0 is an empty array, and assigning to it
    changes nothing and raises nothing, whatever the value is. *)
Theorem C05_empty_refuted : forall h s a b n sh, valid h s -> match s with SBuffer _ => False | _ => True end ->
  shape_of s = n :: sh -> positive (shape_of s) ->
  let ix := XItem (ISlice (Sl a b (Some 0))) in
  (~ is_dm s -> exists s' h', getitem h s ix = Ok (ISto s', h') /\ valid h' s' /\ extends h h' /\ shape_of s' = 0 :: sh /\ size_of s' = Ok 0)
  /\ forall value, setitem h s ix value = (h, Ok tt).
Proof.
  intros h s a b n sh V Nb Esh Hp. cbv zeta.
  set (ix := XItem (ISlice (Sl (Some 0) (Some 0) None))).
  assert (Hok : ok_index ix (shape_of s)).
  { rewrite Esh. split; [repeat constructor; cbn; lia|right; cbn; lia]. }
  assert (Hsl : slice_shape ix (shape_of s) = 0 :: sh).
  { rewrite Esh. rewrite Esh in Hp. inversion Hp as [|? ? H0 H1]; subst. unfold slice_shape.
    assert (S0 : selected (Sl (Some 0) (Some 0) None) n = []).
    { unfold selected. replace (sp_count _ _ _) with 0; [reflexivity|]. unfold sp_count. change (sp_step (Sl (Some 0) (Some 0) None)) with 1.
      change (sp_stop (Sl (Some 0) (Some 0) None) n) with (sp_start (Sl (Some 0) (Some 0) None) n). cbn [Z.ltb Z.compare]. now rewrite Z.ltb_irrefl. }
    unfold ix. cbn [index_items items_shape]. rewrite S0. now destruct sh. }
  assert (Hne : slice_shape ix (shape_of s) <> []) by (rewrite Hsl; discriminate).
  assert (Nbox : forall j, ~ in_box j (slice_shape ix (shape_of s))).
  { intros j. rewrite Hsl. intros B. inversion B; subst. lia. }
  pose proof (fun value => C05_arrays_refuted h s (XItem (ISlice (Sl a b (Some 0)))) value V Nb) as Z.
  cbn [zeroed zero_item] in Z. fold ix in Z. split.
  - intros Nd. rewrite (proj1 (Z (SrcSeq VNone))).
    destruct (C42_empty_slices_partial h s ix) as (s' & h' & E1 & E2 & E3 & E4 & E5); auto.
    + destruct s; try contradiction; cbn; auto; destruct V as (f & E & [] & _).
    + rewrite Hsl. now left.
    + exists s', h'. rewrite Hsl in E4. auto.
  - intros value. rewrite (proj2 (Z value)). destruct V as [f Hf].
    assert (D : is_sparse s \/ (exists t, s = SStrided t) \/ exists sh' rd rsh rs ro d, s = SDM sh' rd rsh rs ro d).
    { destruct s; try contradiction; try (left; exact I); [right; left; eauto|destruct Hf as (E & [] & _)|right; right; eauto 8]. }
    destruct D as [D|[(t & ->)|(sh' & rd & rsh & rs & ro & d & ->)]].
    + destruct (sparse_entries _ _ (ex_intro _ f Hf) D) as (E & HE).
      destruct (sparse_positions _ _ E ix HE Hp Hok Hne) as (L & d & EL & Ed & HL & _).
      rewrite (sparse_setitem_run _ _ ix value d L D (entries_separate _ _ _ HE) EL).
      rewrite (empty_list L _ HL); [reflexivity|]. intros j p [B _]. exact (Nbox j B).
    + cbn [shape_of] in *. destruct Hf as (l & _ & St & _). rewrite (strided_setitem_loop h t ix value (so_strides _ _ St) Hp Hok), Hsl. reflexivity.
    + destruct Hf as (g & Hg & Hm & Hfg). cbn [shape_of] in *.
      destruct (dm_positions _ _ _ _ _ _ ix Hm Hp Hok Hne) as (L & EL & HL & _ & Hb).
      rewrite (dm_setitem_run _ _ _ _ _ _ _ _ _ _ EL).
      rewrite (empty_list L _ HL); [reflexivity|]. intros j p [B _]. exact (Nbox j B).
Qed.
Print Assumptions C05_empty_refuted.

(** Reading and assigning [x[::0]] for a 2 x 3 array of four classes. *)
Example C05_case : forall c, In c [CStrided; CCOO; CFlatCOO; CCSR] ->
  exists s h s' h', fromobject c [] (SrcSeq nested_2x3) (fo_unspecified (Some (VInt 0))) = Ok (s, h)
    /\ shape_of s = [2; 3] /\ valid h s
    /\ getitem h s (XItem (ISlice (Sl None None (Some 0)))) = Ok (ISto s', h') /\ shape_of s' = [0; 3]
    /\ setitem h s (XItem (ISlice (Sl None None (Some 0)))) (SrcSeq (VInt 7)) = (h, Ok tt).
Proof.
  assert (R : regular [2; 3] nested_2x3) by (repeat (split || constructor); cbn; lia).
  intros c Hc.
  assert (K : exists s h, fromobject c [] (SrcSeq nested_2x3) (fo_unspecified (Some (VInt 0))) = Ok (s, h)
    /\ shape_of s = [2; 3] /\ valid h s /\ ~ is_dm s /\ match s with SBuffer _ => False | _ => True end).
  { destruct (C22_fromobject_elements c [] nested_2x3 [2; 3] (Some (VInt 0)) R) as (s & h & E & C & Es & _ & V & _).
    - destruct Hc as [<-|[<-|[<-|[<-|[]]]]]; cbn; auto; discriminate.
    - intros _. eexists [0; 0], _. split; [repeat constructor; lia|]. split; [vm_compute; reflexivity|]. split; discriminate.
    - exists s, h. split; [exact E|]. split; [exact Es|]. split; [exact V|].
      destruct Hc as [<-|[<-|[<-|[<-|[]]]]]; destruct s; cbn in C |- *; try contradiction; auto. }
  destruct K as (s & h & E & Es & V & Nd & Nb).
  destruct (C05_empty_refuted h s None None 2 [3] V Nb Es) as [G S]; [rewrite Es; repeat constructor; lia|].
  destruct (G Nd) as (s' & h' & E' & _ & _ & E3 & _). exists s, h, s', h'. auto 8.
Qed.

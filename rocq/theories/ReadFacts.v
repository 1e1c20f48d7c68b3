(** Element reads by arbitrary indices, copies and enumeration for every class. *)
From Coq Require Import Sorting.Sorted Permutation ZifyBool.
From Verif Require Import Py SliceTools Basics Storage Spec SliceFacts IndexFacts
  CompressFacts ReduceFacts SolverFacts SolveFacts Repr ReprFacts ViewFacts BuildFacts SparseFacts
  ConvFacts FromFacts DMFacts.

(** Element indices: every class but Buffer wraps integers modulo the axis length. *)
Lemma getitem_element s h f ix : repr h s f -> positive (shape_of s) -> ok_index ix (shape_of s) ->
  slice_shape ix (shape_of s) = [] ->
  (forall b, s = SBuffer b -> exists x, 0 <= x < bsize b /\ index_items ix = [IInt x]) ->
  getitem h s ix = Ok (IVal (f (source_index ix (shape_of s) [])), h).
Proof.
  intros Hr Hp Hok Hnil Hbuf.
  assert (Hin : in_box (source_index ix (shape_of s) []) (shape_of s)).
  { apply source_index_in_box; auto. rewrite Hnil. constructor. }
  pose proof (repr_getitem h s f _ Hr Hin) as G. revert G.
  pose proof Hok as [Hitems _].
  set (sh := shape_of s) in *. set (nix := norm_items (index_items ix) sh).
  assert (Hn : normal_index nix sh) by now apply norm_items_normal.
  assert (Es : n_shape nix sh = []) by (unfold nix; rewrite norm_items_shape; assumption).
  assert (Eq : source_index ix sh [] = n_source nix sh []).
  { symmetry. apply norm_items_source; auto. unfold slice_shape in Hnil. rewrite Hnil. constructor. }
  assert (Eel : is_element_index nix sh = true) by now apply element_n_shape.
  assert (Ei : int_items nix = source_index ix sh []) by (rewrite Eq; now apply element_source).
  assert (N1 : normalize_index ix sh = Ok nix) by now apply normalize_index_ok.
  assert (N2 : normalize_index (int_tuple (source_index ix sh [])) sh = Ok (map NInt (source_index ix sh [])))
    by now apply normalize_ints.
  assert (E2 : is_element_index (map NInt (source_index ix sh [])) sh = true)
    by (apply is_element_ints; now apply in_box_len).
  destruct s; cbn [getitem].
  - destruct (Hbuf _ eq_refl) as (x & Hx & Ex). unfold buffer_getitem.
    assert (Ec : buf_complete_index ix = Ok (IInt x)).
    { destruct ix as [i|l]; cbn [index_items] in Ex; [injection Ex as ->|subst l]; reflexivity. }
    rewrite Ec. unfold source_index. rewrite Ex. cbn [items_source sh shape_of]. rewrite Z.mod_small by lia.
    cbn [int_tuple map buf_complete_index]. intros G; exact G.
  - unfold strided_getitem. change (sshape s) with sh. rewrite N1, N2. cbn [bind].
    rewrite Eel, E2, Ei, int_items_ints. intros G; exact G.
  - fold sh. rewrite N1, N2. cbn [bind]. rewrite Eel, E2, Ei, int_items_ints. intros G; exact G.
  - fold sh. rewrite N1, N2. cbn [bind]. rewrite Eel, E2, Ei, int_items_ints. intros G; exact G.
  - fold sh. rewrite N1, N2. cbn [bind]. rewrite Eel, E2, Ei, int_items_ints. intros G; exact G.
  - destruct Hr as (E & [] & _).
  - cbn [shape_of] in sh. change shape with sh. rewrite N1, N2. cbn [bind].
    rewrite Eel, E2, Ei, int_items_ints. intros G; exact G.
Qed.

(** * copy *)
Definition map_snd (c : pyval -> pyval) (E : list (list Z * pyval)) : list (list Z * pyval) :=
  map (fun e => (fst e, c (snd e))) E.

Lemma map_snd_fst c E : map fst (map_snd c E) = map fst E.
Proof. unfold map_snd. rewrite map_map. reflexivity. Qed.

Lemma map_snd_snd c E : map snd (map_snd c E) = map c (map snd E).
Proof. unfold map_snd. rewrite !map_map. reflexivity. Qed.

Lemma map_snd_column c k E : column k (map_snd c E) = column k E.
Proof. unfold column, map_snd. rewrite map_map. reflexivity. Qed.

Lemma map_snd_ordered c sh E : ordered sh E -> ordered sh (map_snd c E).
Proof.
  intros [H1 H2]. split.
  - unfold map_snd. clear H2. induction H1; cbn [map]; constructor; auto.
  - now rewrite map_snd_fst.
Qed.

Lemma map_snd_zlen c E : zlen (map_snd c E) = zlen E.
Proof. unfold map_snd. apply zlen_map. Qed.

Lemma map_snd_lookup c E u i : lookup (map_snd c E) (c u) i = c (lookup E u i).
Proof.
  unfold lookup, map_snd. induction E as [|e E IH]; cbn [map find]; [reflexivity|]. cbn [fst].
  destruct (lex_eqb (fst e) i); [reflexivity|exact IH].
Qed.

Lemma conv_value_unspec su u : conv_value su u su = u.
Proof. unfold conv_value. now rewrite veqb_refl. Qed.

Lemma copy_ok : forall s h f u, repr h s f ->
  let u' := new_unspec (unspecified_of s) u in
  exists s' h', copy h s u = Ok (s', h')
    /\ shape_of s' = shape_of s /\ unspecified_of s' = u'
    /\ extends h h'
    /\ repr h' s' (fun i => conv_value (unspecified_of s) u' (f i))
    /\ (length h <= data_addr s')%nat /\ index_addrs s' = index_addrs s
    /\ match s, s' with
       | SBuffer _, SBuffer _ | SStrided _, SStrided _ | SCOO _ _ _, SCOO _ _ _
       | SFlatCOO _ _ _, SFlatCOO _ _ _ | SCSR _ _ _ _, SCSR _ _ _ _ => True
       | SDM sh rd rsh rs ro _, SDM sh' rd' rsh' rs' ro' _ =>
           sh' = sh /\ rd' = rd /\ rsh' = rsh /\ rs' = rs /\ ro' = ro
       | _, _ => False
       end.
Proof.
  induction s as [b|t|sh ind d|sh fi d|sh cr co d|sh ch a b c d|sh rd rsh rs ro d IH];
    intros h f u Hr u'; cbn [copy].
  - destruct Hr as (vs & Hh & Hf). rewrite (buf_copy_ok h b vs u Hh). cbn [bind].
    change (new_unspec (bunspec b) u) with u'. set (vs' := map (conv_value (bunspec b) u') vs).
    assert (Hs : bsize b = zlen vs) by (destruct Hh as (l & _ & _ & Hs & _); exact Hs).
    eexists _, _. split; [reflexivity|]. cbn [shape_of unspecified_of bsize bunspec].
    split; [now rewrite Hs|]. split; [reflexivity|]. split; [apply extends_alloc|]. split.
    + cbn [repr]. exists vs'. split; [apply holds_new_map|]. intros x Hx. unfold vs' in *.
      rewrite zlen_map in Hx. rewrite Hf by exact Hx. cbn [unspecified_of].
      transitivity (nth (Z.to_nat x) (map (conv_value (bunspec b) u') vs) (conv_value (bunspec b) u' VNone)).
      * now rewrite map_nth.
      * apply nth_indep. rewrite map_length. unfold zlen in Hx. lia.
    + repeat split. cbn. lia.
  - pose proof (strided_copy_ok h t f u Hr) as E. cbv zeta in E. rewrite E. cbn [bind].
    change (new_unspec (bunspec (sdata t)) u) with u'.
    eexists _, _. split; [reflexivity|]. cbn [shape_of unspecified_of sshape sdata bunspec].
    split; [reflexivity|]. split; [reflexivity|]. split; [apply extends_alloc|]. split.
    + pose proof (repr_nonneg h _ f Hr) as Hnn. cbn [shape_of] in Hnn.
      assert (Hget : forall i, in_box i (sshape t) -> (fun i => Ok (f i)) i = Ok (f i)) by reflexivity.
      destruct (strided_build_ok (fun i => Ok (f i)) f (sshape t) (bunspec (sdata t)) u' h Hnn Hget)
        as (_ & B2 & B3).
      rewrite zlen_map in B2, B3. unfold zlen in B2, B3. rewrite (cart_length _ Hnn) in B2, B3.
      cbn [repr sdata baddr sshape]. eexists. split; [apply nth_error_new|]. split; [exact B2|].
      intros i Hi. now rewrite B3.
    + repeat split. cbn. lia.
  - destruct Hr as (E & HE & Hf). pose proof HE as (H1 & H2 & H3 & H4 & H5 & H6 & H7 & H8).
    rewrite (buf_copy_ok h d _ u H4). cbn [bind]. change (new_unspec (bunspec d) u) with u'.
    unfold mk_coo. rewrite H5. change (pyget [zlen sh; zlen E] 1) with (@Ok Z (zlen E)). cbn [bind].
    cbn [bsize]. unfold assert_. rewrite zlen_map, Z.eqb_refl. cbn [bind].
    eexists _, _. split; [reflexivity|]. split; [reflexivity|]. split; [reflexivity|].
    split; [apply extends_alloc|]. split; [|repeat split; cbn; lia].
    cbn [repr]. exists (map_snd (conv_value (bunspec d) u') E). split.
    + cbn [entries]. split; [exact H1|]. split; [exact H2|]. split; [now apply map_snd_ordered|].
      split.
      { rewrite map_snd_snd. rewrite <- (zlen_map snd E). apply holds_new_map. }
      rewrite map_snd_zlen. split; [exact H5|]. split; [exact H6|]. split.
      { rewrite (map_ext (fun k => column k (map_snd (conv_value (bunspec d) u') E)) (fun k => column k E))
          by (intros; apply map_snd_column). eapply holds_extends; [apply extends_alloc|exact H7]. }
      cbn [baddr]. pose proof (holds_lt _ _ _ H7). split; [lia|apply H8].
    + cbn [shape_of unspecified_of bunspec] in *. intros i Hi. rewrite Hf by exact Hi.
      rewrite <- (map_snd_lookup (conv_value (bunspec d) u')). now rewrite conv_value_unspec.
  - destruct Hr as (E & HE & Hf). pose proof HE as (H1 & H2 & H3 & H4 & H5 & H6).
    rewrite (buf_copy_ok h d _ u H4). cbn [bind]. change (new_unspec (bunspec d) u) with u'.
    assert (Hz : bsize fi = zlen (map snd E)).
    { destruct H5 as (l & _ & _ & Hs & _). rewrite Hs, !zlen_map. reflexivity. }
    unfold mk_flatcoo. cbn [bsize]. unfold assert_. rewrite Hz, Z.eqb_refl. cbn [bind].
    eexists _, _. split; [reflexivity|]. split; [reflexivity|]. split; [reflexivity|].
    split; [apply extends_alloc|]. split; [|repeat split; cbn; lia].
    cbn [repr]. exists (map_snd (conv_value (bunspec d) u') E). split.
    + cbn [entries]. split; [exact H1|]. split; [exact H2|]. split; [now apply map_snd_ordered|].
      split.
      { rewrite map_snd_snd. apply holds_new_map. }
      split.
      { eapply holds_extends; [apply extends_alloc|]. unfold map_snd. rewrite map_map. exact H5. }
      cbn [baddr]. pose proof (holds_lt _ _ _ H5). split; [lia|apply H6].
    + cbn [shape_of unspecified_of bunspec] in *. intros i Hi. rewrite Hf by exact Hi.
      rewrite <- (map_snd_lookup (conv_value (bunspec d) u')). now rewrite conv_value_unspec.
  - destruct Hr as (E & HE & Hf). pose proof HE as (H1 & H2 & H3 & H4 & H5 & H6 & H7 & H8).
    rewrite (buf_copy_ok h d _ u H4). cbn [bind]. change (new_unspec (bunspec d) u) with u'.
    destruct sh as [|n [|m [|? ?]]]; try (cbn in H2; lia).
    assert (Hn : 0 <= n) by now inversion H1.
    assert (Hz : bsize co = zlen (map snd E)).
    { destruct H6 as (l & _ & _ & Hs & _). rewrite Hs. unfold column. rewrite !zlen_map. reflexivity. }
    assert (Hz2 : bsize cr = n + 1).
    { destruct H5 as (l & _ & _ & Hs & _). rewrite Hs, zlen_map, zseq_length. cbn [nth]. lia. }
    unfold mk_csr. cbn [bsize]. unfold assert_. change (zlen [n; m] =? 2) with true. cbn [bind].
    change (pyget [n; m] 0) with (@Ok Z n). cbn [bind]. rewrite Hz2, Z.eqb_refl. cbn [bind].
    rewrite Hz, Z.eqb_refl. cbn [bind].
    eexists _, _. split; [reflexivity|]. split; [reflexivity|]. split; [reflexivity|].
    split; [apply extends_alloc|]. split; [|repeat split; cbn; lia].
    cbn [repr]. exists (map_snd (conv_value (bunspec d) u') E). split.
    + cbn [entries]. split; [exact H1|]. split; [exact H2|]. split; [now apply map_snd_ordered|].
      split.
      { rewrite map_snd_snd. apply holds_new_map. }
      rewrite !map_snd_column. split; [eapply holds_extends; [apply extends_alloc|exact H5]|].
      split; [eapply holds_extends; [apply extends_alloc|exact H6]|].
      cbn [baddr]. pose proof (holds_lt _ _ _ H5). pose proof (holds_lt _ _ _ H6). split; [lia|]. split; [lia|apply H8].
    + cbn [shape_of unspecified_of bunspec] in *. intros i Hi. rewrite Hf by exact Hi.
      rewrite <- (map_snd_lookup (conv_value (bunspec d) u')). now rewrite conv_value_unspec.
  - destruct Hr as (E & [] & _).
  - destruct Hr as (g & Hg & Hd & Hf).
    destruct (IH h g u Hg) as (d' & h' & E1 & E2 & E3 & E4 & E5 & E6 & E7 & _).
    rewrite E1. cbn [bind]. rewrite mk_dm_ok.
    2:{ apply (dm_groups _ _ _ _ _ _ Hd). } 2:{ apply (dm_perm _ _ _ _ _ _ Hd). }
    cbn [bind]. rewrite <- (dm_rshapes _ _ _ _ _ _ Hd).
    eexists _, _. split; [reflexivity|]. cbn [shape_of unspecified_of] in *. split; [reflexivity|].
    split; [exact E3|]. split; [exact E4|]. split; [|repeat split; auto].
    cbn [repr]. eexists. split; [exact E5|]. rewrite E2. split; [exact Hd|].
    intros i Hi. now rewrite Hf.
Qed.

(** * elements *)
Lemma elements_dense h s f : repr h s f -> match s with SStrided _ | SDM _ _ _ _ _ _ => True | _ => False end ->
  elements h s = Ok (map (fun i => (KTup i, f i)) (cart (shape_of s))).
Proof.
  intros Hr Hs. destruct s; try contradiction; cbn [elements shape_of].
  - rewrite (strided_elements_ok h s f Hr). cbn [bind]. now rewrite map_map.
  - destruct Hr as (g & Hg & Hd & Hf). unfold dm_iad. rewrite (dm_rshapes _ _ _ _ _ _ Hd).
    rewrite mapM_ok with (g := fun i => (i, dm_index rdims rstrides roffset i)).
    + cbn [bind]. rewrite mapM_ok with (g := fun p => (KTup (fst p), f (fst p))).
      * now rewrite map_map.
      * intros p Hp. apply in_map_iff in Hp. destruct Hp as (i & <- & Hi). apply In_cart in Hi.
        cbn [fst snd]. rewrite (repr_get h s g) by (auto; now apply (dm_box _ _ _ _ _ _ Hd)).
        cbn [bind]. now rewrite Hf.
    + intros i Hi. apply In_cart in Hi.
      rewrite reduce_index_dm; [reflexivity|apply (dm_rstrides _ _ _ _ _ _ Hd)| |apply (dm_roffset _ _ _ _ _ _ Hd)].
      rewrite (in_box_zlen _ _ Hi). apply perm_axes, (dm_perm _ _ _ _ _ _ Hd).
Qed.

Lemma elements_sparse h s E : entries h s E -> positive (shape_of s) ->
  elements h s = Ok (map (fun e => (KTup (fst e), snd e)) E).
Proof.
  intros HE Hp. pose proof (entries_sparse h s E HE) as Hs.
  destruct (entries_data h s E HE) as (d & Ed & Hd & _).
  assert (X : (d <- data_buffer s ;; l <- sparse_iad h s ;;
               mapM (fun p => v <- buf_get h d (snd p) ;; Ok (KTup (fst p), v)) l)
              = Ok (map (fun e => (KTup (fst e), snd e)) E)).
  { rewrite Ed. cbn [bind]. rewrite (sparse_iad_ok h s E HE Hp). cbn [bind].
    rewrite mapM_ok with (g := fun p => (KTup (fst p), nth (Z.to_nat (snd p)) (map snd E) VNone)).
    - f_equal. unfold numbered. rewrite map_map. cbn [fst snd].
      transitivity (map (fun e => (KTup (fst e), snd e)) (map (fun x => nth (Z.to_nat x) E ([], VNone)) (zseq (zlen E)))).
      + rewrite map_map. apply map_ext. intros x. now rewrite nth_map_snd.
      + now rewrite map_nth_zseq.
    - intros [i p] Hin. apply In_numbered in Hin. cbn [fst snd].
      rewrite (buf_get_ok _ _ _ _ Hd); [reflexivity|]. rewrite zlen_map. unfold zlen in *. lia. }
  destruct s; try contradiction; exact X.
Qed.

Lemma elements_buffer h b f : repr h (SBuffer b) f ->
  elements h (SBuffer b) = Ok (map (fun x => (KInt x, f [x])) (zseq (bsize b))).
Proof.
  intros (vs & Hh & Hf). pose proof Hh as (l & Hl & Ho & Hs & He & Hv). cbn [elements].
  rewrite (cell_ok _ _ _ Hl). cbn [bind].
  rewrite mapM_ok with (g := fun p => (KInt (p - boff b), f [p - boff b])).
  - f_equal. unfold zrange. replace (boff b + bsize b - boff b) with (bsize b) by lia.
    unfold zseq. rewrite !map_map. apply map_ext. intros k.
    replace (boff b + Z.of_nat k - boff b) with (Z.of_nat k) by lia. reflexivity.
  - intros p Hp. apply In_zrange in Hp. rewrite (pyget_ok _ _ VNone) by lia. cbn [bind].
    rewrite Hf by lia. rewrite <- (holds_nth h b vs l (p - boff b) Hl Hh) by lia. do 2 f_equal. f_equal. lia.
Qed.

(** Copies, fromobject and conversions. *)
From Coq Require Import Sorting.Sorted Permutation ZifyBool.
From Verif Require Import Py SliceTools Basics Storage Spec SliceFacts IndexFacts
  CompressFacts ReduceFacts SolverFacts SolveFacts Repr ReprFacts ViewFacts BuildFacts SparseFacts.

(** * Buffer.copy *)
Lemma pyslice_window {A} (l : list A) a b : 0 <= a <= b -> b <= zlen l ->
  pyslice_list l a b = firstn (Z.to_nat (b - a)) (skipn (Z.to_nat a) l).
Proof.
  intros H1 H2. unfold pyslice_list, pyclamp.
  replace (a <? 0) with false by lia. replace (b <? 0) with false by lia.
  now rewrite !(Z.max_l _ 0), !Z.min_l by lia.
Qed.

Lemma holds_slice h b vs l : holds h b vs -> nth_error h (baddr b) = Some l ->
  pyslice_list l (boff b) (boff b + bsize b) = vs.
Proof.
  intros (l' & Hl & Ho & Hs & He & Hv) Hl'. rewrite Hl in Hl'. injection Hl' as ->.
  rewrite pyslice_window by (pose proof (zlen_nonneg vs); lia).
  replace (boff b + bsize b - boff b) with (bsize b) by lia. rewrite Hs. unfold zlen. now rewrite Nat2Z.id.
Qed.

Lemma holds_zrange h b vs l : holds h b vs -> nth_error h (baddr b) = Some l ->
  mapM (pyget l) (zrange (boff b) (boff b + bsize b)) = Ok vs.
Proof.
  intros Hh Hl. pose proof Hh as (l' & Hl' & Ho & Hs & He & Hv). rewrite Hl in Hl'. injection Hl' as <-.
  rewrite mapM_ok with (g := fun p => nth (Z.to_nat (p - boff b)) vs VNone).
  - f_equal. unfold zrange. rewrite map_map.
    replace (boff b + bsize b - boff b) with (zlen vs) by lia.
    rewrite <- (map_nth_zseq vs VNone) at 2. apply map_ext. intros x. do 2 f_equal. lia.
  - intros p Hp. apply In_zrange in Hp. rewrite (pyget_ok l p VNone) by lia. f_equal.
    rewrite <- (holds_nth h b vs l (p - boff b) Hl Hh) by lia. f_equal. lia.
Qed.

Lemma map_conv_id u vs : map (conv_value u u) vs = vs.
Proof. rewrite <- (map_id vs) at 2. apply map_ext. intros v. apply conv_value_id. Qed.

Definition new_unspec (su : pyval) (u : option pyval) : pyval :=
  match u with None => su | Some x => x end.

Lemma buf_copy_ok h b vs u : holds h b vs ->
  let u' := new_unspec (bunspec b) u in
  buf_copy h b u = Ok (Buf (zlen vs) 0 (length h) u', h ++ [map (conv_value (bunspec b) u') vs]).
Proof.
  intros Hh u'. pose proof Hh as (l & Hl & _). unfold buf_copy. fold (new_unspec (bunspec b) u). fold u'.
  rewrite (cell_ok _ _ _ Hl). cbn [bind]. destruct (veqb u' (bunspec b)) eqn:Eu.
  - apply veqb_eq in Eu. rewrite (holds_slice h b vs l Hh Hl), Eu, map_conv_id. apply new_buffer_ok.
  - rewrite (holds_zrange h b vs l Hh Hl). cbn [bind]. rewrite new_buffer_ok. now rewrite zlen_map.
Qed.

Lemma holds_new_map {A} h (l : list A) f u : holds (h ++ [map f l]) (Buf (zlen l) 0 (length h) u) (map f l).
Proof. rewrite <- (zlen_map f l). apply holds_new. Qed.

(** * Strided.copy *)
Lemma set_nth_new {A} (h : list A) x y : set_nth (length h) y (h ++ [x]) = h ++ [y].
Proof. induction h as [|z h IH]; cbn; [reflexivity|]. now rewrite IH. Qed.

Lemma set_nth_app {A} (l m : list A) k v : k = length l -> set_nth k v (l ++ m) = l ++ set_nth 0 v m.
Proof. intros ->. induction l as [|x l IH]; cbn [app length set_nth]; [reflexivity|]. cbn. now rewrite IH. Qed.

Lemma n_ints i sh : length i = length sh ->
  n_shape (map NInt i) sh = []
  /\ (forall st, length st = length sh -> n_strides (map NInt i) st = [] /\ n_offset (map NInt i) sh st = zdot i st).
Proof.
  revert sh. induction i as [|x i IH]; intros [|n sh] Hl; cbn in Hl; try lia.
  - split; [reflexivity|]. intros [|a st] Hs; cbn in Hs; try lia. split; reflexivity.
  - destruct (IH sh ltac:(lia)) as [H1 H2]. split; [exact H1|].
    intros [|a st] Hs; cbn in Hs; try lia. destruct (H2 st ltac:(lia)) as [H3 H4].
    cbn [map n_strides n_offset zdot]. split; [exact H3|]. rewrite H4. lia.
Qed.

Lemma ints_normal i sh : in_box i sh -> normal_index (map NInt i) sh.
Proof. intros H. induction H; cbn [map]; constructor; auto. Qed.

Lemma index_strided_ints i sh st : in_box i sh -> length st = length sh ->
  index_strided (map NInt i) sh st 0 = Ok ([], [], zdot i st).
Proof.
  intros Hi Hl. rewrite index_strided_ok; [|exact (in_box_positive_shape _ _ Hi)|now apply ints_normal|assumption].
  destruct (n_ints i sh (in_box_len _ _ Hi)) as [H1 H2]. destruct (H2 st Hl) as [H3 H4].
  rewrite H1, H3, H4. reflexivity.
Qed.

Lemma strided_set_elem_ok h t l i v : nth_error h (baddr (sdata t)) = Some l ->
  length (sstrides t) = length (sshape t) ->
  in_box i (sshape t) -> 0 <= spos t i < zlen l ->
  strided_set_elem h t i v = Ok (set_nth (baddr (sdata t)) (set_nth (Z.to_nat (spos t i)) v l) h).
Proof.
  intros Hl Hs Hi Hp. unfold strided_set_elem. rewrite normalize_ints by assumption. cbn [bind].
  rewrite index_strided_ints by assumption. cbn [bind].
  unfold strided_slice_iad. cbn [cart mapM get_position bind seq_value].
  unfold buf_set. rewrite (cell_ok _ _ _ Hl). cbn [bind].
  replace (boff (sdata t) + (zdot i (sstrides t) + 0)) with (spos t i) by (unfold spos; lia).
  rewrite pyset_ok by assumption. reflexivity.
Qed.

Lemma cart_position sh k : (k < length (cart sh))%nat ->
  zdot (nth k (cart sh) []) (make_strides sh) = Z.of_nat k.
Proof.
  intros Hk. set (i := nth k (cart sh) []).
  assert (Hi : in_box i sh) by (apply In_cart; now apply nth_In).
  pose proof (cart_nth sh i Hi) as E. pose proof (ravel_range i sh Hi) as Hr.
  assert (Hlen : Z.of_nat (length (cart sh)) = product sh).
  { apply cart_length. clear - Hi. induction Hi; constructor; auto. lia. }
  assert (Eq : Z.to_nat (zdot i (make_strides sh)) = k).
  { apply (proj1 (NoDup_nth (cart sh) []) (sorted_NoDup _ (cart_sorted sh))); [lia|exact Hk|exact E]. }
  lia.
Qed.

Lemma strided_elements_ok h t f : repr h (SStrided t) f ->
  strided_elements h t = Ok (map (fun i => (i, f i)) (cart (sshape t))).
Proof.
  intros (l & Hl & Ht & Hf). unfold strided_elements, strided_iad.
  rewrite mapM_ok with (g := fun i => (i, zdot i (sstrides t))).
  - cbn [bind]. rewrite mapM_ok with (g := fun p => (fst p, f (fst p))).
    + now rewrite map_map.
    + intros [i p] Hin. apply in_map_iff in Hin. destruct Hin as (j & Ej & Hj). injection Ej as -> <-.
      apply In_cart in Hj. cbn [fst snd]. unfold buf_get. rewrite (cell_ok _ _ _ Hl). cbn [bind].
      pose proof (so_pos _ _ Ht _ Hj) as Hp. pose proof (so_end _ _ Ht). unfold spos in Hp.
      rewrite (pyget_ok l _ VNone) by lia. cbn [bind]. rewrite (Hf _ Hj). reflexivity.
  - intros i Hi. apply In_cart in Hi.
    rewrite get_position_ok; [reflexivity|now apply in_box_len|apply (so_strides _ _ Ht)].
Qed.

Lemma strided_copy_ok h t f u : repr h (SStrided t) f ->
  let sh := sshape t in
  let su := bunspec (sdata t) in
  let u' := new_unspec su u in
  strided_copy h t u
  = Ok (Str sh (make_strides sh) (Buf (product sh) 0 (length h) u'),
        h ++ [map (fun i => conv_value su u' (f i)) (cart sh)]).
Proof.
  intros Hr sh su u'. unfold strided_copy. fold sh su. fold (new_unspec su u). fold u'.
  assert (Hn : nonneg sh) by (destruct Hr as (l & _ & Ht & _); apply (so_shape _ _ Ht)).
  pose proof (cart_length sh Hn) as Hcl.
  set (n := Z.to_nat (product sh)).
  set (vs := map (fun i => conv_value su u' (f i)) (cart sh)).
  assert (Hvs : length vs = n) by (unfold vs, n; rewrite map_length; lia).
  cbn [alloc]. unfold mk_buffer. rewrite (cell_ok _ _ _ (nth_error_new h _)). cbn [bind].
  unfold assert_ at 1. replace (0 + product sh <=? zlen (repeat u' n)) with true
    by (unfold zlen, n; rewrite repeat_length; lia). cbn [bind].
  unfold mk_strided, assert_. replace (zlen sh =? zlen (make_strides sh)) with true
    by (unfold zlen; rewrite make_strides_length; lia). cbn [bind].
  rewrite (strided_elements_ok h t f Hr). cbn [bind]. fold sh.
  set (t' := Str sh (make_strides sh) (Buf (product sh) 0 (length h) u')).
  match goal with |- bind (?go0 _ _) _ = _ => set (go := go0) end.
  assert (G : forall k, (k <= n)%nat ->
    go (map (fun i => (i, f i)) (skipn (n - k) (cart sh))) (h ++ [firstn (n - k) vs ++ repeat u' k])
    = Ok (h ++ [vs])).
  { induction k as [|k IH]; intros Hk.
    - rewrite Nat.sub_0_r. rewrite skipn_all2 by (unfold n; lia). cbn [repeat map go].
      rewrite app_nil_r, firstn_all2 by lia. reflexivity.
    - assert (Hlt : (n - S k < length (cart sh))%nat) by (unfold n in *; lia).
      assert (Esk : skipn (n - S k) (cart sh) = nth (n - S k) (cart sh) [] :: skipn (n - k) (cart sh)).
      { replace (n - k)%nat with (S (n - S k)) by lia. clear - Hlt. revert Hlt.
        generalize (n - S k)%nat. intros p. revert p. induction (cart sh) as [|x l IHl]; intros p Hp; [cbn in Hp; lia|].
        destruct p; [reflexivity|]. cbn [skipn nth]. apply IHl. cbn in Hp. lia. }
      rewrite Esk. cbn [map]. set (i := nth (n - S k) (cart sh) []) in *.
      assert (Hi : in_box i sh) by (apply In_cart; now apply nth_In).
      unfold go. fold go. 
      assert (Hpos : spos t' i = Z.of_nat (n - S k)).
      { unfold spos, t'. cbn [sdata boff sstrides]. unfold i. now rewrite cart_position. }
      rewrite (strided_set_elem_ok _ t' (firstn (n - S k) vs ++ repeat u' (S k))).
      + cbn [bind]. rewrite Hpos, Nat2Z.id. unfold t' at 1. cbn [sdata baddr]. rewrite set_nth_new.
        rewrite set_nth_app by (rewrite firstn_length; lia). cbn [repeat set_nth].
        rewrite <- (IH ltac:(lia)). f_equal. f_equal. f_equal.
        replace (n - k)%nat with (S (n - S k)) by lia.
        assert (Ef : firstn (S (n - S k)) vs = firstn (n - S k) vs ++ [conv_value su u' (f i)]).
        { assert (Hlv : (n - S k < length vs)%nat) by lia.
          replace (conv_value su u' (f i)) with (nth (n - S k) vs (conv_value su u' (f []))).
          - clear - Hlv. revert Hlv. generalize (n - S k)%nat. generalize (conv_value su u' (f [])).
            intros d p. revert p. induction vs as [|x l IHl]; intros p Hp; [cbn in Hp; lia|].
            destruct p; [reflexivity|]. cbn [firstn nth app]. f_equal. apply IHl. cbn in Hp. lia.
          - unfold vs. rewrite (map_nth (fun i => conv_value su u' (f i))). reflexivity. }
        rewrite Ef, <- app_assoc. reflexivity.
      + unfold t'. cbn [sdata baddr]. apply nth_error_new.
      + unfold t'. cbn [sstrides sshape]. apply make_strides_length.
      + exact Hi.
      + rewrite Hpos. unfold zlen. rewrite app_length, firstn_length, repeat_length. lia. }
  specialize (G n (Nat.le_refl n)). rewrite Nat.sub_diag in G. cbn [skipn firstn app] in G.
  rewrite G. reflexivity.
Qed.

(** * Conversions between sparse classes *)
Lemma coo_of_flatcoo_ok h sh f d E : entries h (SFlatCOO sh f d) E -> positive sh ->
  exists ind d' h', coo_of_flatcoo h sh f d = Ok (SCOO sh ind d', h')
    /\ extends h h' /\ entries h' (SCOO sh ind d') E /\ bunspec d' = bunspec d
    /\ fresh h (SCOO sh ind d').
Proof.
  intros HE Hp. pose proof HE as (Hn & Hne & Ho & Hd & Hf & _). unfold coo_of_flatcoo.
  rewrite (flatcoo_iad_ok h sh f d E HE Hp). cbn [bind]. rewrite numbered_fst, columns_column.
  destruct (strided_of_rows (map (fun k => column k E) (seq 0 (length sh))) (zlen E) h)
    as (t & Et & Hsh & Hst & Ha & Hu & Hh).
  { destruct sh; [congruence|discriminate]. } { apply columns_const. }
  rewrite Et. cbn [bind]. set (h1 := h ++ [map VInt (concat (map (fun k => column k E) (seq 0 (length sh))))]) in *.
  assert (Hd1 : holds h1 d (map snd E)) by (eapply holds_extends; [apply extends_alloc|exact Hd]).
  rewrite (buf_copy_ok h1 d _ None Hd1). cbn [new_unspec bind].
  rewrite zlen_map in Hsh. rewrite (zlen_map snd E).
  assert (Hls : zlen (seq 0 (length sh)) = zlen sh) by (unfold zlen; now rewrite seq_length).
  rewrite Hls in Hsh. unfold mk_coo. rewrite Hsh.
  change (pyget [zlen sh; zlen E] 1) with (@Ok Z (zlen E)). cbn [bind bsize].
  unfold assert_. rewrite Z.eqb_refl. cbn [bind]. rewrite map_conv_id.
  eexists _, _, _. split; [reflexivity|]. split; [eapply extends_trans; apply extends_alloc|].
  split; [|split; [reflexivity|]].
  - cbn [entries]. split; [exact Hn|]. split; [exact Hne|]. split; [exact Ho|].
    split; [apply holds_new_map|]. split; [exact Hsh|]. split; [exact Hst|].
    split; [eapply holds_extends; [apply extends_alloc|exact Hh]|].
    rewrite Ha. cbn [baddr]. unfold h1. rewrite length_app1. split; [lia|exact Hu].
  - intros a [<-|[<-|[]]]; cbn [data_addr baddr]; [unfold h1; rewrite length_app1|rewrite Ha]; lia.
Qed.

Lemma flatcoo_of_coo_ok h sh ind d E : entries h (SCOO sh ind d) E ->
  exists f d' h', flatcoo_of_coo h sh ind d = Ok (SFlatCOO sh f d', h')
    /\ extends h h' /\ entries h' (SFlatCOO sh f d') E /\ bunspec d' = bunspec d
    /\ fresh h (SFlatCOO sh f d').
Proof.
  intros HE. pose proof HE as (Hn & Hne & Ho & Hd & _). unfold flatcoo_of_coo.
  rewrite (coo_iad_ok h sh ind d E HE). cbn [bind].
  rewrite mapM_positions by now apply numbered_in_box. cbn [bind].
  assert (Em : map (fun e => zdot (fst e) (make_strides sh)) (numbered E)
               = map (fun e => zdot (fst e) (make_strides sh)) E).
  { rewrite <- !(map_map fst (fun i => zdot i (make_strides sh))). now rewrite numbered_fst. }
  rewrite Em. rewrite new_buffer_ok. cbn [bind].
  set (fs := map VInt (map (fun e => zdot (fst e) (make_strides sh)) E)).
  assert (Hd1 : holds (h ++ [fs]) d (map snd E)) by (eapply holds_extends; [apply extends_alloc|exact Hd]).
  rewrite (buf_copy_ok (h ++ [fs]) d _ None Hd1). cbn [new_unspec bind]. rewrite map_conv_id.
  unfold mk_flatcoo, assert_. cbn [bsize]. unfold fs at 1. rewrite !zlen_map, Z.eqb_refl. cbn [bind].
  eexists _, _, _. split; [reflexivity|]. split; [eapply extends_trans; apply extends_alloc|].
  split; [|split; [reflexivity|]].
  - cbn [entries]. split; [exact Hn|]. split; [exact Hne|]. split; [exact Ho|].
    split; [apply holds_new_map|]. split.
    + eapply holds_extends; [apply extends_alloc|]. rewrite c_strides_make.
      rewrite <- (map_map (fun e => zdot (fst e) (make_strides sh)) VInt). fold fs. apply holds_new.
    + cbn [baddr bunspec]. rewrite length_app1. split; [lia|reflexivity].
  - intros a [<-|[<-|[]]]; cbn [data_addr baddr]; rewrite ?length_app1; lia.
Qed.

Lemma coo_indices_ok h sh ind d E : entries h (SCOO sh ind d) E ->
  exists l, nth_error h (baddr (sdata ind)) = Some l /\ strided_ok ind l
    /\ forall j p, 0 <= j < zlen sh -> 0 <= p < zlen E ->
       nth (Z.to_nat (spos ind [j; p])) l VNone
       = VInt (nth (Z.to_nat j) (fst (nth (Z.to_nat p) E ([], VNone))) 0).
Proof.
  intros (Hn & Hne & Ho & Hd & Hsh & Hst & Hi & _). pose proof Hi as (l & Hl & Hoff & Hsz & Hend & _).
  exists l. split; [exact Hl|].
  rewrite zlen_map in Hsz. unfold zlen in Hsz at 1. rewrite length_concat_columns in Hsz.
  assert (Hsz' : bsize (sdata ind) = zlen sh * zlen E) by (unfold zlen; lia). clear Hsz.
  pose proof (zlen_nonneg E) as HE0. pose proof (zlen_nonneg sh) as Hs0.
  split.
  - constructor; rewrite ?Hsh, ?Hst.
    + repeat constructor; assumption.
    + reflexivity.
    + exact Hoff.
    + exact Hend.
    + nia.
    + intros i Hib. destruct (in_box_2 _ _ _ Hib) as (j & p & -> & Hj & Hp). unfold spos. rewrite Hst.
      cbn [zdot]. rewrite Hsz'. clear - Hj Hp Hoff. nia.
    + intros i i' Hib Hib'. destruct (in_box_2 _ _ _ Hib) as (j & p & -> & Hj & Hp).
      destruct (in_box_2 _ _ _ Hib') as (j' & p' & -> & Hj' & Hp'). unfold spos. rewrite Hst. cbn [zdot].
      intros Eq. assert (j = j') by (clear - Eq Hp Hp'; nia). subst j'.
      f_equal. f_equal. lia.
  - intros j p Hj Hp. 
    unfold spos. rewrite Hst. cbn [zdot].
    replace (boff (sdata ind) + (j * zlen E + (p * 1 + 0)))
      with (boff (sdata ind) + (j * zlen E + p)) by lia.
    rewrite (holds_nth h (sdata ind) _ l (j * zlen E + p) Hl Hi).
    + rewrite nth_indep with (d' := VInt 0).
      * rewrite map_nth. f_equal.
        replace (Z.to_nat (j * zlen E + p)) with (Z.to_nat j * length E + Z.to_nat p)%nat
          by (unfold zlen in *; nia).
        apply nth_concat_columns; unfold zlen in *; lia.
      * rewrite map_length, length_concat_columns. unfold zlen in *. nia.
    + rewrite zlen_map. unfold zlen at 3. rewrite length_concat_columns. unfold zlen in *. nia.
Qed.

Lemma get_value_repr h s f i : repr h s f -> shape_of s <> [] -> in_box i (shape_of s) ->
  get_value h (SrcSto s) i = Ok (f i).
Proof.
  intros Hr Hne Hi. cbn [get_value]. destruct i as [|x i].
  - inversion Hi. congruence.
  - now apply repr_get.
Qed.

Lemma in_box_1 i n : in_box i [n] -> exists x, i = [x] /\ 0 <= x < n.
Proof. intros H. inversion H as [|x ? i1 ? Hx H1]; subst. inversion H1; subst. eauto. Qed.

Lemma csr_of_coo_ok h n m ind d E : entries h (SCOO [n; m] ind d) E -> E <> [] ->
  exists cb cl d' h', csr_of_coo h [n; m] ind d = Ok (SCSR [n; m] cb cl d', h')
    /\ extends h h' /\ entries h' (SCSR [n; m] cb cl d') E /\ bunspec d' = bunspec d
    /\ fresh h (SCSR [n; m] cb cl d').
Proof.
  intros HE Hne. pose proof HE as (Hn & _ & Ho & Hd & Hsh & Hst & Hi & _ & Hiu).
  destruct (coo_indices_ok _ _ _ _ _ HE) as (l & Hl & Hok & Hv).
  assert (HzE : 0 < zlen E) by (destruct E; [congruence|unfold zlen; cbn [length]; lia]).
  change (zlen [n; m]) with 2 in *.
  assert (Hp2 : positive (sshape ind)) by (rewrite Hsh; repeat constructor; lia).
  (* rows of the index array *)
  assert (Hrow : forall h1, nth_error h1 (baddr (sdata ind)) = Some l -> forall j, 0 <= j < 2 ->
    exists r, strided_row h1 ind j = Ok r /\ sshape r = [zlen E]
      /\ baddr (sdata r) = baddr (sdata ind) /\ bunspec (sdata r) = VNone
      /\ strided_ok r l
      /\ forall p, 0 <= p < zlen E -> nth (Z.to_nat (spos r [p])) l VNone
           = VInt (nth (Z.to_nat j) (fst (nth (Z.to_nat p) E ([], VNone))) 0)).
  { intros h1 Hl1 j Hj.
    destruct (strided_slice h1 ind l (XItem (IInt j)) Hl1 Hok Hp2) as (r & Er & Hrs & Hra & Hru & Hro & Hrp).
    { split; [repeat constructor|]. right. rewrite Hsh. cbn. lia. }
    { rewrite Hsh. discriminate. }
    rewrite Hsh in Hrs, Hrp. cbn in Hrs. exists r. unfold strided_row. rewrite Er. cbn [bind].
    split; [reflexivity|]. split; [exact Hrs|]. split; [exact Hra|]. split; [congruence|]. split; [exact Hro|].
    intros p Hp. destruct (Hrp [p]) as [_ Ep]; [rewrite Hrs; repeat constructor; lia|].
    rewrite Ep. change (source_index (XItem (IInt j)) [2; zlen E] [p]) with [j mod 2; p].
    rewrite Z.mod_small by lia. now apply Hv. }
  unfold csr_of_coo. destruct (Hrow h Hl 0 ltac:(lia)) as (r0 & Er0 & Hs0 & Ha0 & _ & Hok0 & Hv0).
  rewrite Er0. cbn [bind]. change (pyget [n; m] 0) with (@Ok Z n). cbn [bind].
  rewrite Hs0. change (pyget [zlen E] 0) with (@Ok Z (zlen E)). cbn [bind].
  rewrite mapM_ok with (g := fun i => nth (Z.to_nat i) (column 0 E) 0).
  2:{ intros i Hiz. apply In_zseq in Hiz. unfold strided_int.
      destruct (strided_slice_element h r0 l (XItem (IInt i))) as [_ Ee]; auto.
      - congruence.
      - rewrite Hs0. repeat constructor. lia.
      - split; [repeat constructor|]. right. rewrite Hs0. cbn. lia.
      - now rewrite Hs0.
      - rewrite Ee, Hs0. cbn [bind item_val].
        change (source_index (XItem (IInt i)) [zlen E] []) with [i mod zlen E].
        rewrite Z.mod_small by lia. rewrite Hv0 by lia. cbn [bind as_int].
        rewrite column_nth by (unfold zlen in *; lia). reflexivity. }
  cbn [bind]. assert (Hc0 : zlen (column 0 E) = zlen E) by apply zlen_map.
  rewrite <- Hc0, map_nth_zseq. rewrite (compress_column n m) by assumption. cbn [bind].
  rewrite buffer_of_ints. cbn [bind]. set (h1 := h ++ [map VInt (crow_of n E)]).
  assert (Hl1 : nth_error h1 (baddr (sdata ind)) = Some l) by (eapply extends_cell; [apply extends_alloc|exact Hl]).
  destruct (Hrow h1 Hl1 1 ltac:(lia)) as (r1 & Er1 & Hs1 & Ha1 & Hu1 & Hok1 & Hv1).
  rewrite Er1. cbn [bind].
  set (g := fun i => match i with [p] => VInt (nth 1 (fst (nth (Z.to_nat p) E ([], VNone))) 0) | _ => VNone end).
  assert (Hr1 : repr h1 (SStrided r1) g).
  { cbn [repr]. exists l. rewrite Ha1. split; [exact Hl1|]. split; [exact Hok1|].
    intros i Hib. rewrite Hs1 in Hib. destruct (in_box_1 _ _ Hib) as (p & -> & Hp).
    rewrite Hv1 by exact Hp. reflexivity. }
  rewrite (strided_copy_ok h1 r1 g None Hr1). cbn [bind new_unspec]. rewrite Hs1.
  set (cs := map (fun i => conv_value (bunspec (sdata r1)) (bunspec (sdata r1)) (g i)) (cart [zlen E])).
  assert (Ecs : cs = map VInt (column 1 E)).
  { unfold cs. rewrite cart_1, map_map. unfold column. rewrite map_map.
    transitivity (map (fun p => VInt (nth 1 (fst (nth (Z.to_nat p) E ([], VNone))) 0)) (zseq (zlen E))).
    - apply map_ext. intros p. rewrite conv_value_id. reflexivity.
    - rewrite <- (map_map (fun p => nth (Z.to_nat p) E ([], VNone)) (fun e => VInt (nth 1 (fst e) 0))).
      now rewrite map_nth_zseq. }
  set (h2 := h1 ++ [cs]).
  set (t2 := Str [zlen E] (make_strides [zlen E]) (Buf (product [zlen E]) 0 (length h1) (bunspec (sdata r1)))).
  assert (Hr2 : repr h2 (SStrided t2) g).
  { destruct (strided_build_ok (fun i => Ok (g i)) g [zlen E] (bunspec (sdata r1)) (bunspec (sdata r1)) h1)
      as (_ & Hok2 & Hv2).
    - repeat constructor. lia.
    - reflexivity.
    - fold cs in Hok2, Hv2. replace (zlen cs) with (product [zlen E]) in Hok2, Hv2.
      + fold t2 in Hok2, Hv2. cbn [repr]. exists cs. unfold t2 at 1. cbn [sdata baddr].
        split; [apply nth_error_new|]. split; [exact Hok2|].
        intros i Hib. rewrite Hv2 by exact Hib. now rewrite conv_value_id.
      + rewrite Ecs, zlen_map. unfold column. rewrite zlen_map. cbn [product]. lia. }
  unfold buffer_fromobject, is_default, fo_default. cbn [fo_get_shape fo_shape get_shape shape_of].
  rewrite (buffer_build_ok _ g).
  2:{ intros i Hib. unfold fo_get. cbn [fo_gsi]. apply get_value_repr; auto. discriminate. }
  cbn [bind]. change (sshape t2) with [zlen E].
  assert (Ecs2 : map (fun i => conv_value (get_unspecified (SrcSto (SStrided t2)))
             (fo_get_unspec (SrcSto (SStrided t2)) {| fo_shape := None; fo_gsi := None; fo_unspec := None |}) (g i))
             (cart [zlen E]) = cs).
  { unfold cs. apply map_ext. intros i. cbn. now rewrite !conv_value_id. }
  rewrite Ecs2, Ecs.
  set (h3 := h2 ++ [map VInt (column 1 E)]).
  assert (Hx : extends h h3).
  { unfold h3, h2, h1. eapply extends_trans; [|apply extends_alloc].
    eapply extends_trans; apply extends_alloc. }
  assert (Hd3 : holds h3 d (map snd E)) by (eapply holds_extends; eassumption).
  rewrite (buf_copy_ok h3 d _ None Hd3). cbn [bind new_unspec]. rewrite map_conv_id.
  set (h4 := h3 ++ [map snd E]).
  match goal with |- context [mk_csr _ ?b1 ?b2 ?b3] => set (cb := b1); set (cl := b2); set (db := b3) end.
  assert (L1 : length h1 = S (length h)) by apply length_app1.
  assert (L2 : length h2 = S (length h1)) by apply length_app1.
  assert (L3 : length h3 = S (length h2)) by apply length_app1.
  destruct (csr_entries h4 n m cb cl db E) as [He' Emk]; auto.
  { apply holds_new. }
  { unfold cb. rewrite <- (zlen_map VInt (crow_of n E)). eapply holds_extends; [|apply holds_new].
    fold h1. eapply extends_trans; [|apply extends_alloc].
    unfold h3, h2. eapply extends_trans; apply extends_alloc. }
  { unfold cl. eapply holds_extends; [apply extends_alloc|]. apply holds_new. }
  { unfold cb, db. cbn [baddr]. lia. } { unfold cl, db. cbn [baddr]. lia. }
  rewrite Emk. cbn [bind]. exists cb, cl, db, h4. split; [reflexivity|].
  split; [eapply extends_trans; [exact Hx|apply extends_alloc]|]. split; [exact He'|].
  split; [reflexivity|]. unfold cb, cl, db. intros a [<-|[<-|[<-|[]]]]; cbn [data_addr baddr]; lia.
Qed.

(** * Sequences *)
Definition nested_elem (v : pyval) (i : list Z) : pyval :=
  match nested_at v i with Some x => x | None => VNone end.

Lemma regular_shape sh v : regular sh v -> seq_shape v = sh.
Proof.
  revert v. induction sh as [|n sh IH]; intros v H; cbn [regular] in H.
  - destruct v; try contradiction; reflexivity.
  - destruct v as [| | |l]; try contradiction. destruct H as (Hl & Hz & Hf).
    destruct l as [|x l]; cbn [seq_shape].
    + unfold zlen in Hl. cbn in Hl. subst n. now rewrite Hz.
    + rewrite Hl. f_equal. apply IH. now inversion Hf.
Qed.

Lemma regular_nonneg sh v : regular sh v -> nonneg sh.
Proof.
  revert v. induction sh as [|n sh IH]; intros v H; [constructor|]. cbn [regular] in H.
  destruct v as [| | |l]; try contradiction. destruct H as (Hl & Hz & Hf).
  constructor; [subst n; apply zlen_nonneg|].
  destruct l as [|x l].
  - rewrite Hz; [constructor|]. subst n. reflexivity.
  - inversion Hf; subst. eapply IH; eassumption.
Qed.

Lemma regular_get sh v i : regular sh v -> in_box i sh ->
  seq_get v i = Ok (nested_elem v i) /\ nested_at v i = Some (nested_elem v i).
Proof.
  revert v i. induction sh as [|n sh IH]; intros v i H Hi; inversion Hi as [|x ? i' ? Hx Hi']; subst.
  - split; reflexivity.
  - cbn [regular] in H. destruct v as [| | |l]; try contradiction. destruct H as (Hl & Hz & Hf).
    cbn [seq_get nested_elem nested_at]. unfold nested_elem. cbn [nested_at].
    replace (x <? 0) with false by lia.
    destruct (nth_error l (Z.to_nat x)) as [w|] eqn:Ew.
    + rewrite Forall_forall in Hf. specialize (Hf w (nth_error_In _ _ Ew)).
      destruct (IH w i' Hf Hi') as [H1 H2]. unfold nested_elem in H1, H2.
      rewrite (pyget_ok l x VNone) by lia. cbn [bind].
      rewrite (nth_error_nth l (Z.to_nat x) VNone Ew). split; [exact H1|exact H2].
    + apply nth_error_None in Ew. unfold zlen in Hl. lia.
Qed.

Lemma regular_value h sh v i : regular sh v -> in_box i sh ->
  get_value h (SrcSeq v) i = Ok (nested_elem v i).
Proof.
  intros H Hi. cbn [get_value]. destruct (regular_get sh v i H Hi) as [H1 _].
  unfold seq_value. destruct i as [|x i]; [exact H1|].
  inversion Hi; subst. cbn [regular] in H. destruct v; try contradiction. exact H1.
Qed.

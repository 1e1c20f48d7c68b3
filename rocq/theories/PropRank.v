(** C110: lists and arrays of a rank that the class is not made for. *)
From Coq Require Import ZifyBool.
From Verif Require Import Py SliceTools Basics Storage Spec SliceFacts IndexFacts
  CompressFacts ReduceFacts SolverFacts SolveFacts Repr ReprFacts ViewFacts BuildFacts SparseFacts
  ConvFacts FromFacts DMFacts ReadFacts MapFacts ChainFacts WriteFacts EqFacts PropRead PropEq PropEdge.
From Coq Require Import List Sorted.

(** * Specification *)

(** The place of the element with indices [i] when the elements of an array of
    shape [sh] are numbered row by row. *)
Fixpoint place (sh i : list Z) : Z :=
  match sh, i with
  | _ :: sh', x :: i' => x * n_elements sh' + place sh' i'
  | _, _ => 0
  end.

(** * Facts *)

Lemma place_dot sh : forall i, in_box i sh -> place sh i = zdot i (make_strides sh).
Proof.
  induction sh as [|n sh IH]; intros i Hi; inversion Hi; subst; [reflexivity|].
  cbn [place make_strides zdot]. rewrite IH by assumption. reflexivity.
Qed.

(** The general branch of Buffer.fromobject, for any rank. *)
Lemma flatten h src a sh g : no_shortcut CBuffer src a -> reads h src a sh g ->
  exists b h', flat_fromobject CBuffer h src a = Ok (SBuffer b, h')
    /\ bsize b = n_elements sh /\ bunspec b = fo_get_unspec src a /\ extends h h' /\ valid h' (SBuffer b)
    /\ forall i, in_box i sh -> get_elem h' (SBuffer b) [place sh i] = Ok (fo_value src a g i).
Proof.
  intros Hns (Hsh & Hn & Hg). set (u := fo_get_unspec src a).
  assert (Eb : buffer_fromobject h src a = buffer_build (fo_get h src a) (fo_get_shape src a) (get_unspecified src) u h).
  { unfold no_shortcut in Hns. unfold buffer_fromobject. destruct src as [v|[]]; try reflexivity;
      destruct (is_default a); try reflexivity; contradiction. }
  set (vs := map (fun i => conv_value (get_unspecified src) u (g i)) (cart sh)).
  assert (Ev : buffer_build (fo_get h src a) sh (get_unspecified src) u h = Ok (Buf (zlen vs) 0 (length h) u, h ++ [vs]))
    by (apply buffer_build_ok; exact Hg).
  assert (Hz : zlen vs = product sh).
  { unfold vs. rewrite zlen_map. unfold zlen. now apply cart_length. }
  set (b := Buf (zlen vs) 0 (length h) u).
  assert (Hr : repr (h ++ [vs]) (SBuffer b) (fun i => match i with [k] => nth (Z.to_nat k) vs VNone | _ => VNone end)).
  { cbn [repr]. exists vs. split; [apply holds_new|]. intros; reflexivity. }
  exists b, (h ++ [vs]). split.
  { cbn [flat_fromobject]. rewrite Eb, Hsh, Ev. reflexivity. }
  split; [exact Hz|]. split; [reflexivity|]. split; [apply extends_alloc|]. split; [eexists; exact Hr|].
  intros i Hi. rewrite (place_dot sh i Hi). pose proof (ravel_range i sh Hi) as R.
  rewrite (repr_get _ _ _ [zdot i (make_strides sh)] Hr).
  - f_equal. unfold vs, fo_value. fold u.
    rewrite nth_indep with (d' := conv_value (get_unspecified src) u (g [])).
    + rewrite (map_nth (fun i => conv_value (get_unspecified src) u (g i))). now rewrite cart_nth.
    + fold vs. unfold zlen in Hz. lia.
  - constructor; [|constructor]. unfold b. cbn [bsize]. lia.
Qed.

(** * C110 *)

(** Buffer.fromobject of a nested list of any depth, a number included: the
    elements row by row. *)
Theorem C110_buffer_of_list : forall h v sh u,
  regular sh v ->
  let u' := chosen VNone u in
  exists b h', fromobject CBuffer h (SrcSeq v) (fo_unspecified u) = Ok (SBuffer b, h')
    /\ bsize b = n_elements sh /\ unspecified_of (SBuffer b) = u' /\ valid h' (SBuffer b) /\ extends h h'
    /\ forall i, in_box i sh -> exists x, nested_at v i = Some x
         /\ (x = VNone -> get_elem h' (SBuffer b) [place sh i] = Ok u')
         /\ (x <> VNone -> get_elem h' (SBuffer b) [place sh i] = Ok x).
Proof.
  intros h v sh u Hreg u'.
  assert (Hsrc : source_repr h (SrcSeq v) (nested_elem v)) by (exists sh; split; [exact Hreg|reflexivity]).
  pose proof (source_reads h (SrcSeq v) (nested_elem v) u Hsrc) as Hreads.
  cbn [get_shape] in Hreads. rewrite (regular_shape sh v Hreg) in Hreads.
  destruct (flatten h (SrcSeq v) (fo_unspecified u) sh (nested_elem v) I Hreads) as (b & h' & E1 & E2 & E3 & E4 & E5 & E6).
  exists b, h'. split; [exact E1|]. split; [exact E2|]. split; [exact E3|]. split; [exact E5|]. split; [exact E4|].
  intros i Hi. destruct (regular_get sh v i Hreg Hi) as [_ Hx]. exists (nested_elem v i). split; [exact Hx|].
  rewrite (E6 i Hi). change (fo_value (SrcSeq v) (fo_unspecified u) (nested_elem v) i) with (conv_value VNone u' (nested_elem v i)).
  destruct (conv_cases VNone u' (nested_elem v i) _ eq_refl) as [C1 C2]. split; intros H; f_equal; auto.
Qed.
Print Assumptions C110_buffer_of_list.

(** as_Buffer() of an array of any rank. *)
Theorem C110_as_Buffer : forall h s u,
  valid h s -> shape_of s <> [] -> (forall b, s <> SBuffer b) ->
  let u' := chosen (unspecified_of s) u in
  exists b h', as_storage CBuffer h s u = Ok (SBuffer b, h')
    /\ bsize b = n_elements (shape_of s) /\ unspecified_of (SBuffer b) = u' /\ valid h' (SBuffer b) /\ extends h h'
    /\ forall i, in_box i (shape_of s) -> exists x, get_elem h s i = Ok x
         /\ (x = unspecified_of s -> get_elem h' (SBuffer b) [place (shape_of s) i] = Ok u')
         /\ (x <> unspecified_of s -> get_elem h' (SBuffer b) [place (shape_of s) i] = Ok x).
Proof.
  intros h s u [f Hr] Hne Hb u'.
  pose proof (source_reads h (SrcSto s) f u (conj Hr Hne)) as Hreads. cbn [get_shape] in Hreads.
  assert (Hns : no_shortcut CBuffer (SrcSto s) (fo_unspecified u)).
  { unfold no_shortcut. destruct (is_default (fo_unspecified u)); [|exact I]. destruct s; try exact I. now contradiction (Hb b). }
  destruct (flatten h (SrcSto s) (fo_unspecified u) (shape_of s) f Hns Hreads) as (b & h' & E1 & E2 & E3 & E4 & E5 & E6).
  exists b, h'. split; [exact E1|]. split; [exact E2|]. split; [exact E3|]. split; [exact E5|]. split; [exact E4|].
  intros i Hi. exists (f i). split; [now apply repr_get|].
  rewrite (E6 i Hi). change (fo_value (SrcSto s) (fo_unspecified u) f i) with (conv_value (unspecified_of s) u' (f i)).
  destruct (conv_cases (unspecified_of s) u' (f i) _ eq_refl) as [C1 C2]. split; intros H; f_equal; auto.
Qed.
Print Assumptions C110_as_Buffer.

(** The comparison of a Buffer with a nested list of any depth compares the
    elements row by row: Buffer [1, 2, 3, 4] equals the list [[1, 2], [3, 4]]. *)
Theorem C110_equal_nested : forall h b v sh,
  valid h (SBuffer b) -> regular sh v ->
  exists r, equal h (SBuffer b) (SrcSeq v) = Ok r
    /\ (r = true <-> bsize b = n_elements sh
          /\ forall i x, in_box i sh -> nested_at v i = Some x ->
               (x = VNone -> get_elem h (SBuffer b) [place sh i] = Ok (unspecified_of (SBuffer b)))
               /\ (x <> VNone -> get_elem h (SBuffer b) [place sh i] = Ok x)).
Proof.
  intros h b v sh [f Hb] Hreg.
  destruct (C110_buffer_of_list h v sh (Some (unspecified_of (SBuffer b))) Hreg) as (a & h1 & E1 & E2 & E3 & V & Hx & E5).
  cbn [chosen] in *.
  assert (Hb1 : repr h1 (SBuffer b) f) by (eapply repr_extends; eassumption).
  destruct (C40_buffer_partial h1 b a (ex_intro _ f Hb1) V) as (r & Er & Hr). exists r. split.
  - unfold equal in *. rewrite (elements_buffer h b f Hb). rewrite (elements_buffer h1 b f Hb1) in Er. cbn [bind] in *.
    cbn [fromobject] in E1. rewrite E1. exact Er.
  - rewrite Hr, E2.
    assert (G : forall k, 0 <= k < bsize b -> get_elem h1 (SBuffer b) [k] = get_elem h (SBuffer b) [k]).
    { intros k Hk. assert (B : in_box [k] (shape_of (SBuffer b))) by (repeat constructor; lia).
      now rewrite (repr_get h1 _ f _ Hb1 B), (repr_get h _ f _ Hb B). }
    assert (Pl : forall i, in_box i sh -> 0 <= place sh i < n_elements sh)
      by (intros i Hi; rewrite (place_dot sh i Hi); exact (ravel_range i sh Hi)).
    assert (Nn : nonneg sh) by (eapply regular_nonneg; eassumption).
    split; intros [Hn H]; (split; [exact Hn|]).
    + intros i x Hi Hx'. destruct (E5 i Hi) as (x' & X1 & X2 & X3). pose proof (Pl i Hi).
      rewrite Hx' in X1. injection X1 as <-. rewrite <- G, (H (place sh i)) by lia. auto.
    + intros k Hk.
      assert (Hi : exists i, in_box i sh /\ place sh i = k).
      { exists (nth (Z.to_nat k) (cart sh) []). pose proof (cart_length sh Nn) as L.
        change (n_elements sh) with (product sh) in Hn.
        assert (B : (Z.to_nat k < length (cart sh))%nat) by lia.
        assert (I1 : in_box (nth (Z.to_nat k) (cart sh) []) sh) by (apply In_cart, nth_In, B).
        split; [exact I1|]. rewrite (place_dot sh _ I1), cart_position by exact B. lia. }
      destruct Hi as (i & Hi & <-). destruct (E5 i Hi) as (x & X1 & X2 & X3).
      destruct (H i x Hi X1) as [Y1 Y2]. rewrite G by exact Hk.
      destruct (veqb x VNone) eqn:Ev.
      * apply veqb_eq in Ev. rewrite X2 by exact Ev. auto.
      * assert (Hne : x <> VNone) by (intros Q; rewrite Q in Ev; discriminate). rewrite X3 by exact Hne. auto.
Qed.
Print Assumptions C110_equal_nested.

(** No CSR array has a rank other than 2, whatever it is made from. *)
Lemma csr_rank h sh ind d s h' : csr_of_coo h sh ind d = Ok (s, h') -> length sh = 2%nat.
Proof.
  unfold csr_of_coo. intros E. do 5 (apply bind_ok in E; destruct E as (? & _ & E)).
  apply bind_ok in E; destruct E as ([? ?] & _ & E). apply bind_ok in E; destruct E as (? & _ & E).
  do 3 (apply bind_ok in E; destruct E as ([? ?] & _ & E)). apply bind_ok in E. destruct E as (r & Er & E).
  unfold mk_csr in Er. apply bind_ok in Er. destruct Er as ([] & Ea & _). unfold assert_ in Ea.
  destruct (zlen sh =? 2) eqn:E2; [|discriminate]. unfold zlen in E2. lia.
Qed.

Lemma coo_shape h src a sh ind d h' : coo_fromobject h src a = Ok (SCOO sh ind d, h') -> sh = fo_get_shape src a.
Proof.
  assert (B : forall get shape su u, coo_build get shape su u h = Ok (SCOO sh ind d, h') -> sh = shape).
  { intros get shape su u E. unfold coo_build in E. apply bind_ok in E. destruct E as (vs & _ & E).
    apply bind_ok in E. destruct E as ([? ?] & _ & E). apply bind_ok in E. destruct E as ([? ?] & _ & E).
    apply bind_ok in E. destruct E as (r & Er & E). injection E as -> _. unfold mk_coo in Er.
    apply bind_ok in Er. destruct Er as (? & _ & Er). apply bind_ok in Er. destruct Er as (? & _ & Er). now injection Er as <- _ _. }
  unfold coo_fromobject. destruct src as [v|[]]; destruct (is_default a) eqn:D; intros E; try exact (B _ _ _ _ E).
  - injection E as <- _ _ _. destruct a as [[?|] ? ?]; [discriminate|reflexivity].
  - unfold coo_of_flatcoo in E. apply bind_ok in E. destruct E as (l & _ & E).
    apply bind_ok in E. destruct E as ([? ?] & _ & E). apply bind_ok in E. destruct E as ([? ?] & _ & E).
    apply bind_ok in E. destruct E as (r & Er & E). injection E as -> _. unfold mk_coo in Er.
    apply bind_ok in Er. destruct Er as (? & _ & Er). apply bind_ok in Er. destruct Er as (? & _ & Er). injection Er as <- _ _.
    destruct a as [[?|] ? ?]; [discriminate|reflexivity].
Qed.

Lemma conv_value_keep su u x : x <> su -> conv_value su u x = x.
Proof. intros H. unfold conv_value. destruct (veqb x su) eqn:E; [apply veqb_eq in E; contradiction|reflexivity]. Qed.
Lemma repeat_is_map (n : nat) : forall k, map (fun i => map (fun ix : list Z => nth i ix 0) []) (seq k n) = repeat (@nil Z) n.
Proof. induction n as [|n IH]; intros k; [reflexivity|]. cbn [seq map repeat]. now rewrite IH. Qed.

(** What CSR.fromobject does with a COO array that stores the elements [E]. *)
Lemma column0_any n sh E : ordered (n :: sh) E ->
  Forall (fun x => 0 <= x < n) (column 0 E) /\ StronglySorted Z.le (column 0 E).
Proof.
  intros [B S]. unfold column. induction E as [|[i x] E IH]; cbn [map fst]; [split; constructor|].
  inversion B as [|? ? Bi BE]; subst. inversion S as [|? ? SE Fi]; subst. destruct (IH BE SE) as [I1 I2].
  cbn [fst] in Bi. inversion Bi as [|a ? i' ? Ha Hi']; subst. split; constructor; auto.
  apply Forall_forall. intros y Hy. apply in_map_iff in Hy. destruct Hy as ([j w] & <- & Hj). cbn [fst].
  rewrite Forall_forall in Fi. specialize (Fi j (in_map fst E (j, w) Hj)). inversion Fi; subst; cbn [nth]; lia.
Qed.

Lemma csr_of_coo_rank h sh ind d E : entries h (SCOO sh ind d) E -> E <> [] -> length sh <> 2%nat ->
  csr_of_coo h sh ind d = Raise AssertionError.
Proof.
  intros HE Hne Hl2. pose proof HE as (Hn & Hsne & Ho & Hd & Hsh & Hst & Hi & _ & Hiu).
  destruct (coo_indices_ok _ _ _ _ _ HE) as (l & Hl & Hok & Hv).
  assert (HzE : 0 < zlen E) by (destruct E; [congruence|unfold zlen; cbn [length]; lia]).
  assert (Hk : 0 < zlen sh) by (destruct sh; [congruence|unfold zlen; cbn [length]; lia]).
  assert (Hp2 : positive (sshape ind)) by (rewrite Hsh; repeat constructor; lia).
  assert (Hrow : forall h1, nth_error h1 (baddr (sdata ind)) = Some l -> forall j,
    exists r, strided_row h1 ind j = Ok r /\ sshape r = [zlen E]
      /\ baddr (sdata r) = baddr (sdata ind)
      /\ strided_ok r l
      /\ forall p, 0 <= p < zlen E -> nth (Z.to_nat (spos r [p])) l VNone
           = VInt (nth (Z.to_nat (j mod zlen sh)) (fst (nth (Z.to_nat p) E ([], VNone))) 0)).
  { intros h1 Hl1 j.
    destruct (strided_slice h1 ind l (XItem (IInt j)) Hl1 Hok Hp2) as (r & Er & Hrs & Hra & Hru & Hro & Hrp).
    { split; [repeat constructor|]. right. rewrite Hsh. cbn. lia. }
    { rewrite Hsh. discriminate. }
    rewrite Hsh in Hrs, Hrp. cbn in Hrs. exists r. unfold strided_row. rewrite Er. cbn [bind].
    split; [reflexivity|]. split; [exact Hrs|]. split; [exact Hra|]. split; [exact Hro|].
    intros p Hp. destruct (Hrp [p]) as [_ Ep]; [rewrite Hrs; repeat constructor; lia|].
    rewrite Ep. change (source_index (XItem (IInt j)) [zlen sh; zlen E] [p]) with [j mod zlen sh; p].
    apply Hv; [apply Z.mod_pos_bound; exact Hk|exact Hp]. }
  unfold csr_of_coo. destruct (Hrow h Hl 0) as (r0 & Er0 & Hs0 & Ha0 & Hok0 & Hv0).
  rewrite Er0. cbn [bind]. destruct sh as [|n sh]; [congruence|]. change (pyget (n :: sh) 0) with (@Ok Z n). cbn [bind].
  rewrite Hs0. change (pyget [zlen E] 0) with (@Ok Z (zlen E)). cbn [bind].
  rewrite mapM_ok with (g := fun i => nth (Z.to_nat i) (column 0 E) 0).
  2:{ intros i Hiz. apply In_zseq in Hiz. unfold strided_int.
      destruct (strided_slice_element h r0 l (XItem (IInt i))) as [_ Ee]; auto.
      - congruence.
      - rewrite Hs0. repeat constructor. lia.
      - split; [repeat constructor|]. right. rewrite Hs0. cbn. lia.
      - now rewrite Hs0.
      - rewrite Ee, Hs0. cbn [bind item_val].
        change (source_index (XItem (IInt i)) [zlen E] []) with [i mod zlen E].
        rewrite Z.mod_small by lia. rewrite Hv0 by lia. cbn [bind as_int].
        rewrite Z.mod_0_l by lia. rewrite column_nth by (unfold zlen in *; lia). reflexivity. }
  cbn [bind]. assert (Hc0 : zlen (column 0 E) = zlen E) by apply zlen_map.
  rewrite <- Hc0, map_nth_zseq. destruct (column0_any n sh E Ho) as [C1 C2].
  rewrite compress_indices_spec; [|now apply StronglySorted_Sorted|now inversion Hn|exact C1]. cbn [bind].
  rewrite buffer_of_ints. cbn [bind].
  match goal with |- context [strided_row ?x ind 1] => set (h1 := x) end.
  assert (Hl1 : nth_error h1 (baddr (sdata ind)) = Some l) by (eapply extends_cell; [apply extends_alloc|exact Hl]).
  destruct (Hrow h1 Hl1 1) as (r1 & Er1 & Hs1 & Ha1 & Hok1 & Hv1). rewrite Er1. cbn [bind].
  set (g := fun i => nth (Z.to_nat (spos r1 i)) l VNone).
  assert (Hr1 : repr h1 (SStrided r1) g).
  { cbn [repr]. exists l. rewrite Ha1. split; [exact Hl1|]. split; [exact Hok1|]. reflexivity. }
  rewrite (strided_copy_ok h1 r1 g None Hr1). cbn [bind new_unspec]. rewrite Hs1.
  set (cs := map (fun i => conv_value (bunspec (sdata r1)) (bunspec (sdata r1)) (g i)) (cart [zlen E])).
  set (h2 := h1 ++ [cs]).
  set (t2 := Str [zlen E] (make_strides [zlen E]) (Buf (product [zlen E]) 0 (length h1) (bunspec (sdata r1)))).
  assert (Hr2 : repr h2 (SStrided t2) g).
  { destruct (strided_build_ok (fun i => Ok (g i)) g [zlen E] (bunspec (sdata r1)) (bunspec (sdata r1)) h1)
      as (_ & Hok2 & Hv2).
    - repeat constructor. lia.
    - reflexivity.
    - fold cs in Hok2, Hv2. replace (zlen cs) with (product [zlen E]) in Hok2, Hv2.
      + fold t2 in Hok2, Hv2. cbn [repr]. exists cs. unfold t2 at 1. cbn [sdata baddr].
        split; [apply nth_error_new|]. split; [exact Hok2|].
        intros i Hib. rewrite Hv2 by exact Hib. now rewrite conv_value_id.
      + unfold cs. rewrite zlen_map, cart_1, zlen_map, zseq_length. cbn [product]. lia. }
  unfold buffer_fromobject, is_default, fo_default. cbn [fo_get_shape fo_shape get_shape shape_of].
  rewrite (buffer_build_ok _ g).
  2:{ intros i Hib. unfold fo_get. cbn [fo_gsi]. apply get_value_repr; auto. discriminate. }
  cbn [bind]. match goal with |- context [buf_copy ?x d None] => set (h3 := x) end.
  assert (Hx : extends h h3).
  { unfold h3, h2, h1. eapply extends_trans; [|apply extends_alloc].
    eapply extends_trans; apply extends_alloc. }
  assert (Hd3 : holds h3 d (map snd E)) by (eapply holds_extends; eassumption).
  rewrite (buf_copy_ok h3 d _ None Hd3). cbn [bind new_unspec].
  unfold mk_csr. replace (zlen (n :: sh) =? 2) with false; [reflexivity|]. unfold zlen. lia.
Qed.

(** CSR.fromobject and as_CSR() raise for everything that is not two-dimensional. *)
Theorem C110_csr : forall h src u,
  length (get_shape src) <> 2%nat -> exists e, fromobject CCSR h src (fo_unspecified u) = Raise e.
Proof.
  intros h src u Hl. destruct (fromobject CCSR h src (fo_unspecified u)) as [[s h']|e] eqn:E; [|eauto].
  exfalso. cbn [fromobject flat_fromobject] in E. unfold csr_fromobject in E. apply bind_ok in E. destruct E as ([c h1] & Ec & E).
  destruct c as [| |sh ind d| | | | ]; try discriminate. apply coo_shape in Ec. apply csr_rank in E. subst sh. exact (Hl E).
Qed.
Print Assumptions C110_csr.

Lemma no_rows l h : strided_of_seq (int_rows (columns 0 l)) h = Ok (Str [0] [1] (Buf 0 0 (length h) VNone), h ++ [[]]).
Proof.
  change (strided_of_seq (VSeq []) h = Ok (Str [0] [1] (Buf 0 0 (length h) VNone), h ++ [[]])).
  unfold strided_of_seq, strided_build, buffer_build. change (cart (seq_shape (VSeq []))) with (@nil (list Z)).
  change (collect (seq_value (VSeq [])) VNone VNone []) with (@Ok (list (list Z * pyval)) []). cbn [bind map].
  rewrite new_buffer_ok. reflexivity.
Qed.

(** A number has no indices: COO.fromobject raises IndexError, DM.fromobject
    AssertionError; FlatCOO.fromobject, like Strided.fromobject, makes an array
    of rank 0 of it. *)
Theorem C110_number : forall h v u, regular [] v ->
  let u' := chosen VNone u in
  let x := match v with VNone => u' | _ => v end in
  fromobject CCOO h (SrcSeq v) (fo_unspecified u) = Raise IndexError
  /\ fromobject CDM h (SrcSeq v) (fo_unspecified u) = Raise AssertionError
  /\ forall c, c = CStrided \/ c = CFlatCOO ->
       exists s h', fromobject c h (SrcSeq v) (fo_unspecified u) = Ok (s, h') /\ is_class c s /\ shape_of s = []
         /\ unspecified_of s = u' /\ extends h h' /\ get_elem h' s [] = Ok x.
Proof.
  intros h v u Hreg u' x.
  assert (Hv : match v with VSeq _ => False | _ => True end) by (destruct v; [exact I..|destruct Hreg]).
  assert (Hs : seq_shape v = []) by (destruct v; [reflexivity..|contradiction]).
  assert (Hx : conv_value VNone u' v = x) by (unfold x, conv_value; destruct v; [reflexivity..|contradiction]).
  assert (Hc : fo_get h (SrcSeq v) (fo_unspecified u) [] = Ok v) by reflexivity.
  split; [|split].
  - cbn [fromobject flat_fromobject]. unfold coo_fromobject, coo_build, fo_get_shape. cbn [fo_unspecified fo_shape get_shape].
    rewrite Hs. rewrite (collect_ok _ (fun _ => v)) by (intros i [<-|[]]; exact Hc). cbn [bind].
    rewrite new_buffer_ok. cbn [bind length]. rewrite no_rows. reflexivity.
  - cbn [fromobject]. unfold dm_fromobject, dm_fromobject_gen, fo_get_shape. cbn [fo_unspecified fo_shape get_shape].
    rewrite Hs. reflexivity.
  - intros c [-> | ->]; cbn [fromobject flat_fromobject].
    + destruct (fromobject_ok CStrided h (SrcSeq v) (fun _ => v) u) as (s & h' & E1 & E2 & E3 & E4 & E5 & E6 & _).
      * exists []. split; [exact Hreg|]. intros [|? ?] Hi; [destruct v; [reflexivity..|contradiction]|inversion Hi].
      * exact I.
      * intros _. cbn [get_shape]. rewrite Hs. constructor.
      * exists s, h'. cbn [get_shape] in E3. rewrite Hs in E3. cbn [flat_fromobject] in E1.
        split; [exact E1|]. split; [exact E2|]. split; [exact E3|]. split; [exact E4|]. split; [exact E5|].
        rewrite (repr_get _ _ _ [] E6) by (rewrite E3; constructor). f_equal. exact Hx.
    + unfold flatcoo_fromobject, flatcoo_build, fo_get_shape. cbn [fo_unspecified fo_shape get_shape].
      rewrite Hs. rewrite (collect_ok _ (fun _ => v)) by (intros i [<-|[]]; exact Hc). cbn [bind get_unspecified].
      change (fo_get_unspec (SrcSeq v) (fo_unspecified u)) with u'. cbn [cart map]. rewrite Hx. unfold specified. cbn [filter snd].
      destruct (veqb x u') eqn:Ev; cbn [negb].
      * apply veqb_eq in Ev. cbn [mapM bind map]. rewrite new_buffer_ok. cbn [bind]. rewrite new_buffer_ok. cbn [bind].
        eexists _, _. split; [reflexivity|]. split; [exact I|]. split; [reflexivity|]. split; [reflexivity|].
        split; [eapply extends_trans; apply extends_alloc|]. rewrite Ev. reflexivity.
      * change (mapM (fun p : list Z * pyval => get_position (fst p) [] (make_strides [])) [([], x)]) with (Ok [0] : res (list Z)).
        cbn [bind map snd]. rewrite new_buffer_ok. cbn [bind]. rewrite new_buffer_ok. cbn [bind].
        eexists _, _. split; [reflexivity|]. split; [exact I|]. split; [reflexivity|]. split; [reflexivity|].
        split; [eapply extends_trans; apply extends_alloc|].
        assert (Hf : holds ((h ++ [[x]]) ++ [[VInt 0]]) (Buf 1 0 (length (h ++ [[x]])) VNone) (map VInt [0]))
          by exact (holds_new_map (h ++ [[x]]) [0] VInt VNone).
        assert (Hd : holds ((h ++ [[x]]) ++ [[VInt 0]]) (Buf 1 0 (length h) u') [x]).
        { eapply holds_extends; [apply extends_alloc|]. exact (holds_new_map h [x] (fun y => y) u'). }
        assert (Hp : get_flatcoo_position ((h ++ [[x]]) ++ [[VInt 0]]) 0 (Buf 1 0 (length (h ++ [[x]])) VNone) = Ok (Some 0)).
        { unfold get_flatcoo_position. change (search_fuel 0 (bsize (Buf 1 0 (length (h ++ [[x]])) VNone) - 1)) with 2%nat.
          cbn [bsearch bsize]. change (1 - 1) with 0. change (0 <=? 0) with true. cbv zeta iota. change ((0 + 0) / 2) with 0.
          rewrite (buf_int_ok _ _ [0] 0 Hf) by (cbn; lia). reflexivity. }
        unfold get_elem. cbn. unfold flat_get_elem, flat_data_position.
        change (get_position [] [] (make_strides [])) with (Ok 0 : res Z). cbn [bind]. rewrite Hp. cbn [bind data_buffer].
        rewrite (buf_get_ok _ _ [x] 0 Hd) by (cbn; lia). reflexivity.
Qed.
Print Assumptions C110_number.

(** With which exception: AssertionError if some element is specified, IndexError
    if none is. *)
Theorem C110_csr_list : forall h v sh u, regular sh v -> length sh <> 2%nat ->
  let u' := chosen VNone u in
  ((sh <> [] /\ exists i x, in_box i sh /\ nested_at v i = Some x /\ x <> VNone /\ x <> u') ->
     fromobject CCSR h (SrcSeq v) (fo_unspecified u) = Raise AssertionError)
  /\ (~ (sh <> [] /\ exists i x, in_box i sh /\ nested_at v i = Some x /\ x <> VNone /\ x <> u') ->
     fromobject CCSR h (SrcSeq v) (fo_unspecified u) = Raise IndexError).
Proof.
  intros h v sh u Hreg Hl2 u'.
  assert (Hsrc : source_repr h (SrcSeq v) (nested_elem v)) by (exists sh; split; [exact Hreg|reflexivity]).
  pose proof (source_reads h (SrcSeq v) (nested_elem v) u Hsrc) as Hreads.
  cbn [get_shape] in Hreads. rewrite (regular_shape sh v Hreg) in Hreads. destruct Hreads as (R1 & R2 & R3).
  destruct sh as [|n sh].
  { split; [intros [H _]; congruence|]. intros _. cbn [fromobject flat_fromobject]. unfold csr_fromobject.
    destruct (C110_number h v u Hreg) as (E & _). cbn [fromobject flat_fromobject] in E. now rewrite E. }
  assert (Hk : 0 < zlen (n :: sh)) by (unfold zlen; cbn [length]; lia).
  set (s0 := n :: sh) in *. assert (Hs0 : s0 <> []) by discriminate.
  cbn [fromobject flat_fromobject]. unfold csr_fromobject. rewrite coo_fromobject_build by exact I. rewrite R1.
  change (fo_get_unspec (SrcSeq v) (fo_unspecified u)) with u'. cbn [get_unspecified].
  split.
  - intros (_ & i & x & Hi & Hx & H1 & H2).
    destruct (coo_build_ok (fo_get h (SrcSeq v) (fo_unspecified u)) (nested_elem v) s0 VNone u' h R2 Hs0 R3) as (ind & h1 & E1 & E2 & Ea & E3).
    rewrite E1. cbn [bind]. eapply csr_of_coo_rank; [exact E3| |exact Hl2].
    apply entries_of_nonempty. exists i. split; [exact Hi|]. unfold nested_elem. rewrite Hx, conv_value_keep by exact H1. exact H2.
  - intros Hno.
    assert (He : entries_of s0 u' (fun i => conv_value VNone u' (nested_elem v i)) = []).
    { destruct (entries_of _ _ _) as [|[i x] r] eqn:Ee; [reflexivity|]. exfalso.
      pose proof (entries_of_specified s0 u' (fun i => conv_value VNone u' (nested_elem v i))) as Q.
      pose proof (entries_of_ordered s0 u' (fun i => conv_value VNone u' (nested_elem v i))) as [B _].
      rewrite Ee in Q, B. inversion Q as [|? ? Q1 _]; subst. inversion B as [|? ? B1 _]; subst. cbn [fst snd] in *.
      assert (Hx : x = conv_value VNone u' (nested_elem v i)).
      { assert (Hin : In (i, x) (entries_of s0 u' (fun i => conv_value VNone u' (nested_elem v i)))) by (rewrite Ee; now left).
        unfold entries_of, specified in Hin. apply filter_In in Hin. destruct Hin as [Hin _]. apply in_map_iff in Hin.
        destruct Hin as (j & Ej & _). injection Ej as -> <-. reflexivity. }
      destruct (regular_get s0 v i Hreg B1) as [_ Hy]. apply Hno. split; [exact Hs0|]. exists i, (nested_elem v i).
      split; [exact B1|]. split; [exact Hy|].
      assert (N : nested_elem v i <> VNone) by (intros N; rewrite N, conv_value_unspec in Hx; contradiction).
      split; [exact N|]. rewrite conv_value_keep in Hx by exact N. congruence. }
    unfold coo_build. rewrite (collect_ok _ (nested_elem v)) by (intros i Hi; apply R3; now apply In_cart). cbn [bind].
    fold (entries_of s0 u' (fun i => conv_value VNone u' (nested_elem v i))).
    rewrite He. cbn [map]. rewrite new_buffer_ok. cbn [bind].
    set (h1 := h ++ [[]]).
    assert (Ec : columns (length s0) [] = repeat (@nil Z) (length s0)) by (unfold columns; rewrite repeat_is_map; reflexivity).
    rewrite Ec.
    destruct (strided_of_rows (repeat [] (length s0)) 0 h1) as (t & Et & Hsh & Hst & Ha & _ & Hh).
    { unfold s0. discriminate. } { apply Forall_forall. intros y Hy. apply repeat_spec in Hy. now subst y. }
    assert (Eci : concat (repeat (@nil Z) (length s0)) = []) by (clear; induction (length s0) as [|k IH]; cbn; auto).
    rewrite Eci in Et, Hh. cbn [map] in Et, Hh. rewrite Et. cbn [bind]. unfold mk_coo. rewrite Hsh.
    match goal with |- context [pyget [?k; 0] 1] => change (pyget [k; 0] 1) with (@Ok Z 0); set (kk := k) end.
    cbn [bind bsize]. change (zlen (@nil pyval)) with 0. cbn [assert_ Z.eqb bind]. unfold csr_of_coo, strided_row.
    assert (Hkk : 0 < kk) by (unfold kk, zlen; rewrite repeat_length; unfold zlen in Hk; lia).
    assert (Hcell : nth_error (h1 ++ [[]]) (baddr (sdata t)) = Some []) by (rewrite Ha; apply nth_error_new).
    destruct Hh as (l0 & Hl0 & Hb0 & _). rewrite Hcell in Hl0.
    unfold strided_getitem. rewrite Hsh, Hst. fold kk.
    assert (En : normalize_index (XItem (IInt 0)) [kk; 0] = Ok [NInt 0; NNone]).
    { cbn. destruct (kk =? 0) eqn:E; [lia|]. rewrite ?Z.mod_0_l by lia. reflexivity. }
    rewrite En. cbn [bind]. change (is_element_index [NInt 0; NNone] [kk; 0]) with false. cbv iota.
    change (index_strided [NInt 0; NNone] [kk; 0] [0; 1] 0) with (Ok ([0], [1], 0) : res geom). cbn [bind].
    unfold buf_slice. rewrite (cell_ok _ _ _ Hcell). cbn [bind sl_start]. change (zlen (@nil pyval)) with 0.
    replace ((boff (sdata t) + 0 <? 0) || (0 <=? boff (sdata t) + 0)) with true by lia. reflexivity.
Qed.
Print Assumptions C110_csr_list.

Theorem C110_as_CSR : forall h s u, valid h s -> positive (shape_of s) -> shape_of s <> [] -> length (shape_of s) <> 2%nat ->
  some_element_stays h s (chosen (unspecified_of s) u) ->
  as_storage CCSR h s u = Raise AssertionError.
Proof.
  intros h s u (f & Hr) Hp Hne Hl2 Hs. cbn [as_storage flat_fromobject]. unfold csr_fromobject.
  destruct (fromobject_ok CCOO h (SrcSto s) f u) as (t & h' & E1 & E2 & E3 & E4 & E5 & E6 & _).
  { split; assumption. } { exact Hne. } { intros _. exact Hp. }
  cbn [flat_fromobject] in E1. rewrite E1. cbn [bind]. destruct t as [| |sh ind d| | | |]; try contradiction.
  cbn [shape_of get_shape unspecified_of get_unspecified] in *. subst sh. destruct E6 as (E & HE & Hf). eapply csr_of_coo_rank; [exact HE| |exact Hl2].
  eapply some_specified_entries; [exact Hf|]. cbn [shape_of unspecified_of]. rewrite E4. exact (stays_specified h s f _ Hr Hs).
Qed.
Print Assumptions C110_as_CSR.

(** Hypotheses met, and what the calls give. *)
Example C110_case :
  let cube := VSeq [VSeq [VSeq [VInt 1; VInt 2]; VSeq [VInt 3; VNone]]; VSeq [VSeq [VInt 5; VInt 6]; VSeq [VInt 7; VInt 8]]] in
  regular [2; 2; 2] cube
  /\ fromobject CBuffer [] (SrcSeq cube) (fo_unspecified (Some (VInt 0)))
     = Ok (SBuffer (Buf 8 0 0 (VInt 0)), [map VInt [1; 2; 3; 0; 5; 6; 7; 8]])
  /\ fromobject CCSR [] (SrcSeq cube) (fo_unspecified None) = Raise AssertionError
  /\ fromobject CCSR [] (SrcSeq (VSeq [VInt 0; VNone])) (fo_unspecified (Some (VInt 0))) = Raise IndexError
  /\ fromobject CCOO [] (SrcSeq (VInt 7)) (fo_unspecified None) = Raise IndexError
  /\ fromobject CFlatCOO [] (SrcSeq (VInt 7)) (fo_unspecified None)
     = Ok (SFlatCOO [] (Buf 1 0 1 VNone) (Buf 1 0 0 VNone), [[VInt 7]; [VInt 0]]).
Proof. cbn zeta. split; [cbn; repeat (split || constructor || lia)|]. repeat split; reflexivity. Qed.

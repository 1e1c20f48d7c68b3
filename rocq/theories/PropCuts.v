(** C113: slices of sparse arrays other threads assign to. *)
From Verif Require Import Py SliceTools Basics Storage Spec SliceFacts IndexFacts CompressFacts ReduceFacts SolverFacts
  SolveFacts Repr ReprFacts ViewFacts BuildFacts SparseFacts ConvFacts FromFacts MapFacts DMFacts ReadFacts WriteFacts RefineFacts
  PropRead PropWrite Threads ThreadFacts PropThreads PropRaces PropFlow Copies PropCopies Cuts.
From Coq Require Import List Permutation.
Import ListNotations.

(** The slice is not a row or column of a CSR array. *)
Definition own_slice (s : storage) (sh : list Z) : Prop :=
  match s with SCSR _ _ _ _ => length sh = 2%nat | _ => is_sparse s end.
Lemma own_sparse s sh : own_slice s sh -> is_sparse s.
Proof. destruct s; cbn; tauto. Qed.

(** * [slice_t] and [slice_of], run alone, are getitem *)

Lemma reads_iad h s E : entries h s E -> reads (sparse_iad_t s) (fun h => sparse_iad h s).
Proof.
  intros HE. destruct s as [b|t|sh ind d|sh fi d|sh cr co d|sh ch a b c d|sh rd rsh rs ro d]; try contradiction; cbn [sparse_iad_t sparse_iad].
  - eapply reads_bind; [apply reads_ret|]. intros n. eapply reads_bind; [apply reads_ret|]. intros rows.
    apply reads_mapM. intros pos. eapply reads_bind; [|intros x; apply reads_ret].
    apply (reads_mapM _ (fun h j => strided_int h ind (int_tuple [j; pos]))). intros j. apply reads_strided_int.
    destruct HE as (_ & _ & _ & _ & -> & _). reflexivity.
  - eapply reads_bind; [apply reads_ret|]. intros sd. apply reads_mapM. intros pos.
    eapply reads_bind; [apply reads_buf_int|]. intros f. eapply reads_bind; [apply reads_ret|]. intros i. apply reads_ret.
  - eapply reads_bind; [apply reads_ret|]. intros n. generalize (zseq n). intros rows.
    induction rows as [|r rows IH]; cbn [csr_iad_rows_t csr_iad_rows]; [apply reads_ret|].
    eapply reads_bind; [apply reads_buf_int|]. intros x. eapply reads_bind; [apply reads_buf_int|]. intros y.
    eapply reads_bind.
    + apply (reads_mapM _ (fun h pos => c <- buf_int h co pos ;; Ok ([r; c], pos))). intros pos. eapply reads_bind; [apply reads_buf_int|]. intros c. apply reads_ret.
    + intros l. eapply reads_bind; [exact IH|]. intros rest. apply reads_ret.
Qed.

Lemma w_iad (R W : nat -> Z -> Prop) s : (forall a p, In a (index_addrs s) -> R a p) -> within R W (sparse_iad_t s).
Proof.
  intros H.
  assert (M : forall X Y (f : X -> prog Y) l, (forall x, within R W (f x)) -> within R W (mapM_t f l)).
  { intros X Y f l Hf. induction l as [|x l IH]; cbn [mapM_t]; [exact I|]. apply within_bind; [apply Hf|]. intros y.
    apply within_bind; [exact IH|]. intros ys. exact I. }
  destruct s as [b|t|sh ind d|sh fi d|sh cr co d|sh ch a b c d|sh rd rsh rs ro d]; cbn [sparse_iad_t index_addrs] in *; try exact I.
  - apply w_pre. intros n. apply w_pre. intros rows. apply M. intros pos. apply within_bind; [|intros x; exact I].
    apply M. intros j. apply w_strided_int. intros p. apply H. now left.
  - apply w_pre. intros sd. apply M. intros pos. apply within_bind; [apply w_buf_int; intros p; apply H; now left|]. intros f.
    apply w_pre. intros i. exact I.
  - apply w_pre. intros n. generalize (zseq n). intros rows. induction rows as [|r rows IH]; cbn [csr_iad_rows_t]; [exact I|].
    apply within_bind; [apply w_buf_int; intros p; apply H; now left|]. intros x.
    apply within_bind; [apply w_buf_int; intros p; apply H; now left|]. intros y.
    apply within_bind.
    + apply M. intros pos. apply within_bind; [apply w_buf_int; intros p; apply H; right; now left|]. intros c. exact I.
    + intros l. apply within_bind; [exact IH|]. intros rest. exact I.
Qed.

(** The slice: its shape, where its elements are, and the positions of those stored. *)
Record slicing (h : heap) (s : storage) (ix : pyindex) (E : list (list Z * pyval)) (nix : list nind) (L : list (list Z * Z)) : Prop := {
  sl_normal : normalize_index ix (shape_of s) = Ok nix;
  sl_element : is_element_index nix (shape_of s) = false;
  sl_view : index_strided nix (shape_of s) (strides_of s) 0
            = Ok (slice_shape ix (shape_of s), n_strides nix (make_strides (shape_of s)), n_offset nix (shape_of s) (make_strides (shape_of s)));
  sl_iad : sparse_iad h s = Ok (numbered E);
  sl_list : slice_iad (shape_of s) (Ok (numbered E)) (slice_shape ix (shape_of s)) (n_strides nix (make_strides (shape_of s)))
              (n_offset nix (shape_of s) (make_strides (shape_of s))) = Ok L;
  sl_nonneg : nonneg (slice_shape ix (shape_of s));
  sl_sorted : forall E', map fst E' = map fst (sorted_pairs L) -> ordered (slice_shape ix (shape_of s)) E';
  sl_places : forall j p, In (j, p) (sorted_pairs L) <->
     in_box j (slice_shape ix (shape_of s)) /\ 0 <= p < zlen E /\ fst (nth (Z.to_nat p) E ([], VNone)) = source_index ix (shape_of s) j }.

Lemma slicing_ok h s ix E : entries h s E -> positive (shape_of s) -> ok_index ix (shape_of s) -> slice_shape ix (shape_of s) <> [] ->
  exists nix L, slicing h s ix E nix L.
Proof.
  intros HE Hp Hok Hne. set (sh := shape_of s) in *. pose proof Hok as [Hitems _].
  set (nix := norm_items (index_items ix) sh).
  assert (Hn : normal_index nix sh) by now apply norm_items_normal.
  assert (Es : n_shape nix sh = slice_shape ix sh) by now apply norm_items_shape.
  assert (Hne' : n_shape nix sh <> []) by congruence.
  pose proof (entries_ordered h s E HE) as Ho. fold sh in Ho.
  destruct (slice_iad_ok sh (numbered E) nix Hp Hn Hne' (numbered_in_box _ _ Ho)) as (L & EL & HL & Hnd).
  { rewrite numbered_fst. eapply ordered_NoDup; eassumption. }
  assert (St : strides_of s = make_strides sh) by (destruct s; try contradiction; reflexivity).
  assert (Hsrc : forall j, in_box j (n_shape nix sh) -> n_source nix sh j = source_index ix sh j).
  { intros j Hj. rewrite Es in Hj. now apply norm_items_source. }
  exists nix, L. constructor; fold sh.
  - now apply normalize_index_ok.
  - destruct (is_element_index nix sh) eqn:E1; [|reflexivity]. apply element_n_shape in E1; [congruence|assumption].
  - rewrite St, index_strided_ok; auto; [now rewrite Es|apply make_strides_length].
  - now apply sparse_iad_ok.
  - now rewrite <- Es.
  - rewrite <- Es. now apply n_shape_nonneg.
  - intros E' Ef. rewrite <- Es. pose proof (sorted_pairs_perm L) as Hperm. split.
    + apply Forall_forall. intros e He. apply (in_map fst) in He. rewrite Ef in He.
      apply in_map_iff in He as ([j p] & <- & Hin). cbn [fst]. apply (Permutation_in _ Hperm) in Hin. now apply HL in Hin.
    + rewrite Ef. apply sorted_map_fst. apply (sorted_pairs_sorted (length (n_shape nix sh))); [|exact Hnd].
      apply Forall_forall. intros [j p] Hin. cbn [fst]. apply in_box_len. now apply HL in Hin.
  - intros j p. rewrite <- Es. split.
    + intros Hin. apply (Permutation_in _ (sorted_pairs_perm L)) in Hin. apply HL in Hin as [Hj Hin]. split; [exact Hj|].
      apply In_numbered in Hin as [H1 H2]. split; [exact H1|]. rewrite <- H2. now apply Hsrc.
    + intros (Hj & H1 & H2). apply (Permutation_in _ (Permutation_sym (sorted_pairs_perm L))). apply HL. split; [exact Hj|].
      apply In_numbered. split; [exact H1|]. rewrite H2. now apply Hsrc.
Qed.

Lemma mapM_size {X Y} (f : X -> res Y) : forall l L, mapM f l = Ok L -> length L = length l.
Proof.
  induction l as [|x l IH]; intros L H; cbn [mapM] in H; [now injection H as <-|]. destruct (f x) as [y|e]; [|discriminate]. cbn [bind] in H.
  destruct (mapM f l) as [ys|e] eqn:E; [|discriminate]. injection H as <-. cbn [length]. now rewrite (IH ys).
Qed.
Lemma sparse_entries h s : valid h s -> is_sparse s -> exists E, entries h s E.
Proof. intros (f & Hr) Hs. destruct s; try contradiction; cbn [repr] in Hr; destruct Hr as (E & HE & _); now exists E. Qed.

(** The values [slice_t] reads when it runs alone. *)
Lemma labelled h d : forall l, mapM (fun p : list Z * Z => v <- buf_get h d (snd p) ;; Ok (fst p, v)) l
  = (vs <- slice_values h d l ;; Ok (combine (map fst l) vs)).
Proof.
  induction l as [|p l IH]; [reflexivity|]. unfold slice_values in *. cbn [mapM]. destruct (buf_get h d (snd p)) as [v|e]; [|reflexivity]. cbn [bind].
  rewrite IH. destruct (mapM (fun p : list Z * Z => buf_get h d (snd p)) l) as [vs|e]; reflexivity.
Qed.
Lemma combine_fst {X Y} : forall (l : list X) (m : list Y), length l = length m -> map fst (combine l m) = l.
Proof. induction l as [|x l IH]; intros [|y m] H; try discriminate; [reflexivity|]. cbn. now rewrite IH by now injection H. Qed.
Lemma combine_snd {X Y} : forall (l : list X) (m : list Y), length l = length m -> map snd (combine l m) = m.
Proof. induction l as [|x l IH]; intros [|y m] H; try discriminate; [reflexivity|]. cbn. now rewrite IH by now injection H. Qed.

Lemma mapM_fst {X Y Z'} (f : list Z -> res Z') : forall (l : list (list Z * X)) (m : list (list Z * Y)), map fst l = map fst m ->
  mapM (fun p => f (fst p)) l = mapM (fun p => f (fst p)) m.
Proof. induction l as [|x l IH]; intros [|y m] H; try discriminate; [reflexivity|]. cbn. injection H as H1 H2. now rewrite H1, (IH _ H2). Qed.
Lemma map_fst {X Y W} (f : list Z -> W) (l : list (list Z * X)) (m : list (list Z * Y)) : map fst l = map fst m ->
  map (fun p => f (fst p)) l = map (fun p => f (fst p)) m.
Proof. intros H. rewrite <- !(map_map fst f). now rewrite H. Qed.

Lemma unwrap (m : res (storage * heap)) s h : ('(r, h1) <- m ;; Ok (ISto r, h1)) = Ok (ISto s, h) -> m = Ok (s, h).
Proof. destruct m as [[r h1]|e]; cbn; congruence. Qed.

Lemma run_slice h s ix E nix L d : entries h s E -> data_buffer s = Ok d -> slicing h s ix E nix L ->
  run (slice_t s ix) h = (h, mapM (fun p => v <- buf_get h d (snd p) ;; Ok (fst p, v)) (sorted_pairs L)).
Proof.
  intros HE Hd HS. unfold slice_t, slice_view. rewrite (sl_normal _ _ _ _ _ _ HS). cbn [bind]. rewrite (sl_view _ _ _ _ _ _ HS), Hd.
  cbn [bind pbind].
  assert (Rd : reads (mapM_t (fun p : list Z * Z => v <~ buf_get_t d (snd p) ;; Ret (Ok (fst p, v))) (sorted_pairs L))
     (fun h => mapM (fun p => v <- buf_get h d (snd p) ;; Ok (fst p, v)) (sorted_pairs L))).
  { apply reads_mapM. intros p. eapply reads_bind; [apply reads_buf_get|]. intros v. apply reads_ret. }
  rewrite run_bind, (reads_iad h s E HE h), (sl_iad _ _ _ _ _ _ HS). rewrite (sl_list _ _ _ _ _ _ HS). apply Rd.
Qed.

(** Alone, [slice_t] reads what [s[ix]] reads and [slice_of] makes of it what
    [s[ix]] returns. *)
Theorem C113_alone : forall h s ix,
  valid h s -> own_slice s (slice_shape ix (shape_of s)) -> positive (shape_of s) -> ok_index ix (shape_of s) ->
  slice_shape ix (shape_of s) <> [] ->
  exists E s' h', run (slice_t s ix) h = (h, Ok E) /\ slice_of s ix E h = Ok (s', h') /\ getitem h s ix = Ok (ISto s', h').
Proof.
  intros h s ix V Ho Hp Hok Hne. pose proof (own_sparse _ _ Ho) as Hs. destruct (sparse_entries h s V Hs) as (E & HE).
  destruct (slicing_ok h s ix E HE Hp Hok Hne) as (nix & L & HS).
  destruct (entries_data h s E HE) as (d & Hd & Hh & Hu).
  destruct (getitem_sparse_slice_full h s E ix HE Hp Hok Hne) as (s' & h' & _ & G & _). pose proof G as G0.
  rewrite (run_slice h s ix E nix L d HE Hd HS), labelled. unfold slice_of, slice_view.
  pose proof HS as [S1 S2 S3 S4 S5 S6 S7 S8]. rewrite S1. cbn [bind]. rewrite S3. cbn [bind].
  assert (X : forall vs, slice_values h d (sorted_pairs L) = Ok vs ->
     map fst (combine (map fst (sorted_pairs L)) vs) = map fst (sorted_pairs L) /\ map snd (combine (map fst (sorted_pairs L)) vs) = vs).
  { intros vs Ev. apply mapM_size in Ev. split; [apply combine_fst|apply combine_snd]; rewrite map_length; congruence. }
  destruct s as [b|t|sh ind d0|sh fi d0|sh cr co d0|sh ch a b c d0|sh rd rsh rs ro d0]; try contradiction;
    cbn [shape_of strides_of unspecified_of data_buffer] in *; injection Hd as ->; cbn [getitem shape_of strides_of data_buffer] in G; rewrite S1 in G; cbn [bind] in G;
    rewrite S2, S3 in G; cbn [bind] in G.
  - unfold coo_get_slice in G. cbn [shape_of] in G. rewrite S4, S5 in G. cbn [bind] in G.
    destruct (slice_values h d (sorted_pairs L)) as [vs|e]; cbn [bind] in G |- *; [|discriminate]. destruct (X _ eq_refl) as [X1 X2].
    eexists _, s', h'. split; [reflexivity|]. split; [|exact G0]. cbn [slice_build]. rewrite X1, X2. exact (unwrap _ _ _ G).
  - unfold flatcoo_get_slice in G. cbn [shape_of] in G. rewrite S4, S5 in G. cbn [bind] in G.
    destruct (slice_values h d (sorted_pairs L)) as [vs|e]; cbn [bind] in G |- *;
      [|destruct (mapM _ _) in G; discriminate]. destruct (X _ eq_refl) as [X1 X2].
    eexists _, s', h'. split; [reflexivity|]. split; [|exact G0]. cbn [slice_build].
    rewrite (mapM_fst (fun i => get_position i (slice_shape ix sh) (make_strides (slice_shape ix sh))) _ _ X1), X2. exact (unwrap _ _ _ G).
  - unfold csr_get_slice in G. cbn [shape_of own_slice] in G, Ho. replace (zlen (slice_shape ix sh) =? 1) with false in G by (unfold zlen; lia).
    rewrite S4, S5 in G. cbn [bind] in G. unfold assert_ in *.
    replace (zlen (slice_shape ix sh) =? 2) with true in G by (unfold zlen; lia). cbn [bind] in G.
    destruct (slice_values h d (sorted_pairs L)) as [vs|e]; cbn [bind] in G |- *; [|discriminate]. destruct (X _ eq_refl) as [X1 X2].
    eexists _, s', h'. split; [reflexivity|]. split; [|exact G0]. cbn [slice_build]. unfold assert_.
    replace (zlen (slice_shape ix sh) =? 2) with true by (unfold zlen; lia). cbn [bind].
    rewrite (map_fst (fun i => nth 0 i 0) _ _ X1), (map_fst (fun i => nth 1 i 0) _ _ X1), X2. exact (unwrap _ _ _ G).
Qed.
Print Assumptions C113_alone.

(** * What [slice_of] makes of any values *)
Lemma slice_build_ok s sh u E h : own_slice s sh -> nonneg sh -> sh <> [] -> ordered sh E ->
  exists s' h', slice_build s sh u E h = Ok (s', h') /\ same_kind s s' /\ shape_of s' = sh /\ unspecified_of s' = u
    /\ extends h h' /\ fresh h s' /\ entries h' s' E.
Proof.
  intros Ho Hnn Hne HE.
  destruct s as [b|t|sh0 ind d|sh0 fi d|sh0 cr co d|sh0 ch a b c d|sh0 rd rsh rs ro d]; try contradiction; cbn [slice_build].
  - rewrite columns_column.
    assert (Ec0 : exists c, pyget (map (fun k => column k E) (seq 0 (length sh))) 0 = Ok c /\ zlen c = zlen E).
    { destruct sh as [|n' sh'']; [congruence|]. cbn [length seq map].
      exists (column 0 E). split; [reflexivity|]. unfold column. apply zlen_map. }
    destruct Ec0 as (c0 & Ec0 & Hc0). rewrite Ec0. cbn [bind]. rewrite Hc0.
    set (cols := concat (map (fun k => column k E) (seq 0 (length sh)))).
    cbn [alloc].
    assert (Hcl : zlen cols = zlen sh * zlen E).
    { unfold cols, zlen. rewrite length_concat_columns. lia. }
    unfold mk_buffer. rewrite (cell_ok _ _ _ (nth_error_new h (map VInt cols))). cbn [bind].
    unfold assert_ at 1. rewrite zlen_map, Hcl.
    replace (0 + product [zlen sh; zlen E] <=? zlen sh * zlen E) with true by (cbn [product]; lia). cbn [bind].
    unfold mk_strided, assert_ at 1.
    replace (zlen [zlen sh; zlen E] =? zlen (make_strides [zlen sh; zlen E])) with true by reflexivity.
    cbn [bind]. rewrite new_buffer_ok. cbn [bind]. rewrite zlen_map.
    unfold mk_coo. cbn [sshape]. change (pyget [zlen sh; zlen E] 1) with (@Ok Z (zlen E)). cbn [bind bsize].
    unfold assert_. rewrite Z.eqb_refl. cbn [bind].
    eexists _, _. split; [reflexivity|]. split; [exact I|]. split; [reflexivity|]. split; [reflexivity|].
    split; [eapply extends_trans; apply extends_alloc|]. split.
    + intros a [<-|[<-|[]]]; cbn [data_addr baddr sdata]; [rewrite app_length|]; lia.
    + cbn [entries]. split; [exact Hnn|]. split; [exact Hne|]. split; [exact HE|].
      split; [rewrite <- (zlen_map snd E); apply holds_new|].
      cbn [sshape sstrides sdata]. split; [reflexivity|]. split; [cbn [make_strides product]; f_equal; lia|].
      split.
      * eapply holds_extends; [apply extends_alloc|]. fold cols.
        replace (product [zlen sh; zlen E]) with (zlen (map VInt cols)) by (rewrite zlen_map; cbn [product]; lia).
        apply holds_new.
      * cbn [baddr bunspec]. rewrite app_length. cbn [length]. split; [lia|reflexivity].
  - rewrite mapM_positions by (destruct HE as [Hb _]; exact Hb). cbn [bind]. rewrite new_buffer_ok. cbn [bind]. rewrite new_buffer_ok. cbn [bind].
    destruct (flatcoo_alloc sh E u h Hnn Hne HE) as [E1 E2].
    rewrite !zlen_map. replace (length (h ++ [map snd E])) with (S (length h)) by (rewrite app_length; cbn; lia).
    rewrite E1. cbn [bind]. eexists _, _. split; [reflexivity|]. split; [exact I|]. split; [reflexivity|]. split; [reflexivity|].
    split; [eapply extends_trans; apply extends_alloc|]. split; [|exact E2].
    intros a [<-|[<-|[]]]; cbn [data_addr baddr]; lia.
  - cbn [own_slice] in Ho. unfold assert_. replace (zlen sh =? 2) with true by (unfold zlen; lia). cbn [bind].
    rewrite new_buffer_ok. cbn [bind]. destruct sh as [|n' [|m' [|? ?]]]; try discriminate.
    change (pyget [n'; m'] 0) with (@Ok Z n'). cbn [bind].
    change (map (fun e : list Z * pyval => nth 0 (fst e) 0) E) with (column 0 E).
    change (map (fun e : list Z * pyval => nth 1 (fst e) 0) E) with (column 1 E).
    rewrite (compress_column n' m') by assumption. cbn [bind].
    rewrite !buffer_of_ints. cbn [bind]. rewrite buffer_of_ints. cbn [bind].
    rewrite !length_app1, zlen_map.
    set (h1 := h ++ [map snd E]). set (h2 := h1 ++ [map VInt (crow_of n' E)]).
    set (h3 := h2 ++ [map VInt (column 1 E)]).
    set (cb := Buf (zlen (crow_of n' E)) 0 (S (length h)) VNone).
    set (cl := Buf (zlen (column 1 E)) 0 (S (S (length h))) VNone).
    set (db := Buf (zlen E) 0 (length h) u).
    destruct (csr_entries h3 n' m' cb cl db E) as [He' Emk]; auto.
    { unfold db. rewrite <- (zlen_map snd E).
      eapply holds_extends; [|apply holds_new]. eapply extends_trans; apply extends_alloc. }
    { unfold cb. rewrite <- (length_app1 h (map snd E)). fold h1. rewrite <- (zlen_map VInt).
      eapply holds_extends; [apply extends_alloc|]. apply holds_new. }
    { unfold cl. rewrite <- (length_app1 h (map snd E)). fold h1.
      rewrite <- (length_app1 h1 (map VInt (crow_of n' E))). fold h2. rewrite <- (zlen_map VInt).
      apply holds_new. }
    { cbn [baddr cb db]. lia. } { cbn [baddr cl db]. lia. }
    rewrite Emk. cbn [bind]. exists (SCSR [n'; m'] cb cl db), h3. split; [reflexivity|]. split; [reflexivity|]. split; [reflexivity|].
    split; [reflexivity|].
    split. { eapply extends_trans; [|apply extends_alloc]. eapply extends_trans; apply extends_alloc. }
    split; [|exact He'].
    intros a [<-|[<-|[<-|[]]]]; cbn [data_addr baddr cb cl db]; lia.
Qed.

(** * With other threads *)

Section Slice.
Variable h0 : heap.
Variable K : nat -> Prop.
Variable V : nat -> Z -> pyval -> Prop.
Variable R : nat -> Z -> Prop.
Variable W : nat -> Z -> pyval -> Prop.
Lemma values_safe d l : (forall j p, In (j, p) l -> 0 <= boff d + p < sizes h0 (baddr d) /\ R (baddr d) (boff d + p)) ->
  safe h0 K V R W (fun r => exists E, r = Ok E /\ map fst E = map fst l
      /\ forall j x, In (j, x) E -> exists p, In (j, p) l /\ V (baddr d) (boff d + p) x)
    (mapM_t (fun p : list Z * Z => v <~ buf_get_t d (snd p) ;; Ret (Ok (fst p, v))) l).
Proof.
  induction l as [|[j p] l IH]; intros H; cbn [mapM_t].
  - cbn [safe]. exists []. split; [reflexivity|]. split; [reflexivity|]. intros j x [].
  - cbn [fst snd buf_get_t pbind safe]. destruct (H j p) as [H1 H2]; [now left|]. left. split; [exact H1|]. split; [exact H2|]. intros v Hv.
    eapply safe_bind; [| |apply IH; intros j' p' Hin; apply (H j'); now right].
    + intros E (E' & HE & F & G). injection HE as <-. cbn [safe]. eexists. split; [reflexivity|]. cbn [map fst]. split; [now f_equal|].
      intros j' x [Hj|Hin]; [injection Hj as <- <-; exists p; split; [now left|exact Hv]|].
      destruct (G j' x Hin) as (q & Hq & Hx). exists q. split; [now right|exact Hx].
    + intros e (E' & HE & _). discriminate.
Qed.
Lemma slice_safe s ix E nix L d : entries h0 s E -> data_buffer s = Ok d -> slicing h0 s ix E nix L ->
  (forall a, In a (index_addrs s) -> K a) ->
  (forall j a p, in_box j (slice_shape ix (shape_of s)) -> kept h0 s (source_index ix (shape_of s) j) a p -> R a p) ->
  safe h0 K V R W (fun r => exists E', r = Ok E' /\ map fst E' = map fst (sorted_pairs L)
      /\ forall j x, In (j, x) E' -> exists p, In (j, p) (sorted_pairs L) /\ V (baddr d) (boff d + p) x) (slice_t s ix).
Proof.
  intros HE Hd HS HK HR. unfold slice_t, slice_view. rewrite (sl_normal _ _ _ _ _ _ HS). cbn [bind]. rewrite (sl_view _ _ _ _ _ _ HS), Hd.
  cbn [bind pbind]. apply safe_still with (x := numbered E).
  - apply w_iad. intros a _. apply HK.
  - rewrite (reads_iad h0 s E HE h0). exact (sl_iad _ _ _ _ _ _ HS).
  - rewrite (sl_list _ _ _ _ _ _ HS). cbn [pbind]. apply values_safe. intros j p Hin.
    apply (sl_places _ _ _ _ _ _ HS) in Hin as (Hj & Hp & Es). split.
    + destruct (entries_data h0 s E HE) as (d' & Hd' & (l & El & Ho & Hs & He & _) & _). rewrite Hd in Hd'. injection Hd' as <-.
      unfold sizes. rewrite El. rewrite zlen_map in Hs. unfold zlen in *. lia.
    + apply (HR j); [exact Hj|]. now apply (k_sparse h0 s d E).
Qed.
End Slice.

(** One thread takes the slice [s[ix]] while the others perform [programs].  No
    thread fails, the new array has the shape, class and unspecified value of the
    slice, shares no list with any array, and each of its elements is a value that
    element of [s] may have had at some time (as in C100).  What the other threads
    read is as in C100. *)
Theorem C113_values : forall programs h sched h' r rs s ix,
  Forall (Forall (flow_op h)) programs -> indices_untouched programs ->
  valid h s -> own_slice s (slice_shape ix (shape_of s)) -> positive (shape_of s) -> ok_index ix (shape_of s) ->
  slice_shape ix (shape_of s) <> [] -> (forall a, In a (index_addrs s) -> untouched programs a) ->
  exec sched h (slice_t s ix :: map unlabelled (map thread programs)) = (h', Ret r :: map Ret rs) ->
  (exists E s' h'', r = Ok E /\ slice_of s ix E h' = Ok (s', h'')
     /\ same_kind s s' /\ shape_of s' = slice_shape ix (shape_of s) /\ unspecified_of s' = unspecified_of s
     /\ extends h' h'' /\ fresh h' s' /\ valid h'' s'
     /\ forall j, in_box j (slice_shape ix (shape_of s)) ->
          exists x, gives h (possible h programs) s (source_index ix (shape_of s) j) x /\ get_elem h'' s' j = Ok x)
  /\ Forall2 (fun ops r => exists xs, r = Ok (map (fun x => ([], x)) xs) /\ reads_give (gives h (possible h programs)) ops xs) programs rs.
Proof.
  intros programs h sched h' r rs s ix F HI V Ho Hp Hok Hne Hu H.
  destruct (sparse_entries h s V (own_sparse _ _ Ho)) as (E & HE).
  destruct (slicing_ok h s ix E HE Hp Hok Hne) as (nix & L & HS).
  destruct (entries_data h s E HE) as (d & Hd & Hh & Hud).
  set (P := possible h programs). set (K := untouched programs).
  set (R := fun (_ : nat) (_ : Z) => True). set (W := fun (_ : nat) (_ : Z) (_ : pyval) => True).
  set (Q := fun ops (r : res (list (list Z * pyval))) => exists xs, r = Ok (map (fun x => ([], x)) xs) /\ reads_give (gives h P) ops xs).
  set (QS := fun r : res (list (list Z * pyval)) => exists E', r = Ok E' /\ map fst E' = map fst (sorted_pairs L)
      /\ forall j x, In (j, x) E' -> exists p, In (j, p) (sorted_pairs L) /\ P (baddr d) (boff d + p) x).
  destruct (exec_safe h K P R W sched h (slice_t s ix :: map unlabelled (map thread programs)) (QS :: map Q programs) h' (Ret r :: map Ret rs)) as [X1 X2].
  - split; [|reflexivity]. split; [reflexivity|]. intros a p x _ Ex. now constructor.
  - constructor; [exact (slice_safe h K P R W s ix E nix L d HE Hd HS Hu (fun _ _ _ _ _ => I))|].
    assert (G : forall l, (forall ops, In ops l -> In ops programs) -> Forall (Forall (flow_op h)) l ->
      Forall2 (fun (Q0 : res (list (list Z * pyval)) -> Prop) t => safe h K P R W Q0 t) (map Q l) (map unlabelled (map thread l))).
    { induction l as [|ops l IH]; intros Hl Fl; [constructor|]. inversion Fl as [|? ? Fo Fr]; subst. cbn [map]. constructor.
      - assert (St : forall o, In o ops -> stated programs o) by (intros o Hin; exists ops; split; [apply Hl; now left|exact Hin]).
        unfold unlabelled. eapply safe_bind; [| |apply (thread_safe h K P R W False ops); [eapply Forall_impl; [apply flow_or|exact Fo]|..|exact (fun _ _ _ _ _ => I)]].
        + intros xs Hxs. cbn [safe]. exists xs. split; [reflexivity|exact Hxs].
        + intros e [].
        + intros o t a Hin. apply (HI o). now apply St.
        + intros t ix' value Hin Hk. now apply (Hk t ix' value (St _ Hin)).
        + intros t ix' value j a p x Hin Hj Hk Hx. split; [|exact I]. apply St in Hin. destruct value as [v|t']; cbn [supplies] in Hx.
          * destruct Hx as [Hx|[]]. eapply p_listed; eassumption.
          * destruct Hx as [(b & q & Hx & Hy)|[Hn ->]]; [eapply p_copied; eassumption|eapply p_unspecified; eassumption].
      - apply IH; [|exact Fr]. intros ops' Hin. apply Hl. now right. }
    now apply G.
  - exact H.
  - inversion X2 as [|? ? ? ? Hr X3]; subst. split.
    + cbn [safe] in Hr. destruct Hr as (E' & -> & Ef & Ev). pose proof (sl_sorted _ _ _ _ _ _ HS E' Ef) as Ho'.
      destruct (slice_build_ok s (slice_shape ix (shape_of s)) (unspecified_of s) E' h' Ho (sl_nonneg _ _ _ _ _ _ HS) Hne Ho')
        as (s' & h'' & Es & Hk & Hsh & Hun & Hx & Hf & HE').
      exists E', s', h''. split; [reflexivity|]. split; [|].
      { unfold slice_of, slice_view. rewrite (sl_normal _ _ _ _ _ _ HS). cbn [bind]. rewrite (sl_view _ _ _ _ _ _ HS). exact Es. }
      split; [exact Hk|]. split; [exact Hsh|]. split; [exact Hun|]. split; [exact Hx|]. split; [exact Hf|].
      assert (Hr : repr h'' s' (lookup E' (unspecified_of s'))) by now apply repr_entries.
      split; [exists (lookup E' (unspecified_of s')); exact Hr|]. intros j Hj. exists (lookup E' (unspecified_of s') j). split; [|apply (repr_get _ _ _ _ Hr); now rewrite Hsh].
      pose proof (ordered_NoDup _ _ Ho') as N'. destruct (epos E' j) as [k|] eqn:Ek.
      * assert (Hin : In (j, snd (nth k E' ([], VNone))) E').
        { apply epos_some in Ek. destruct Ek as [Hk' E1]. rewrite <- E1 at 1. rewrite <- surjective_pairing. now apply nth_In. }
        rewrite (In_lookup E' _ j _ N' Hin). destruct (Ev _ _ Hin) as (p & Hin' & Hpx). left. exists (baddr d), (boff d + p). split; [|exact Hpx].
        apply (sl_places _ _ _ _ _ _ HS) in Hin' as (_ & Hp1 & Hp2). now apply (k_sparse h s d E).
      * rewrite (lookup_absent E' _ j) by now apply epos_none. rewrite Hun. right. split; [|reflexivity].
        apply (kept_sparse h s E d _ HE Hd); [now apply source_index_in_box|].
        destruct (epos E (source_index ix (shape_of s) j)) as [k|] eqn:Ek2; [|reflexivity]. exfalso.
        apply epos_some in Ek2 as [Hk2 Es2]. apply epos_none in Ek. apply Ek. rewrite Ef.
        apply (in_map fst) with (x := (j, Z.of_nat k)). apply (sl_places _ _ _ _ _ _ HS).
        split; [exact Hj|]. split; [unfold zlen; lia|]. now rewrite Nat2Z.id.
    + assert (G : forall l rs, Forall2 (fun (Q0 : res (list (list Z * pyval)) -> Prop) t => safe h K P R W Q0 t) (map Q l) (map Ret rs) ->
        Forall2 (fun ops r => exists xs, r = Ok (map (fun x => ([], x)) xs) /\ reads_give (gives h P) ops xs) l rs).
      { induction l as [|ops l IH]; intros [|r0 rs0] HF; cbn [map] in HF; inversion HF as [|? ? ? ? Hr0 HF']; subst; constructor; [|now apply IH].
        exact Hr0. }
      now apply G.
Qed.
Print Assumptions C113_values.

(** If no thread assigns to an element of [s] that the slice selects, the slice is
    the one taken before the threads start. *)
Theorem C113_quiet : forall programs h sched h' r rs s ix,
  Forall (Forall (flow_op h)) programs -> indices_untouched programs ->
  valid h s -> own_slice s (slice_shape ix (shape_of s)) -> positive (shape_of s) -> ok_index ix (shape_of s) ->
  slice_shape ix (shape_of s) <> [] -> (forall a, In a (index_addrs s) -> untouched programs a) ->
  (forall t ix' value j a p i, stated programs (Assign t ix' value) -> in_box j (slice_shape ix' (shape_of t)) ->
     kept h t (source_index ix' (shape_of t) j) a p -> in_box i (slice_shape ix (shape_of s)) ->
     ~ kept h s (source_index ix (shape_of s) i) a p) ->
  exec sched h (slice_t s ix :: map unlabelled (map thread programs)) = (h', Ret r :: map Ret rs) ->
  exists E s' h'', r = Ok E /\ slice_of s ix E h' = Ok (s', h'')
    /\ forall j, in_box j (slice_shape ix (shape_of s)) ->
         get_elem h'' s' j = get_elem h s (source_index ix (shape_of s) j).
Proof.
  intros programs h sched h' r rs s ix F HI V Ho Hp Hok Hne Hu Hq H.
  destruct (C113_values programs h sched h' r rs s ix F HI V Ho Hp Hok Hne Hu H)
    as [(E & s' & h'' & E1 & E2 & _ & _ & _ & _ & _ & _ & E3) _].
  exists E, s', h''. split; [exact E1|]. split; [exact E2|]. intros j Hj. destruct (E3 j Hj) as (x & Hx & ->). symmetry.
  assert (Hi : in_box (source_index ix (shape_of s) j) (shape_of s)) by now apply source_index_in_box.
  destruct Hx as [(a & p & Kp & P)|[Kp ->]].
  - rewrite (get_kept h s _ a p V Hi Kp). destruct P as [a p x P|? ? ? ? ? ? ? S B K'|? ? ? ? ? ? ? ? ? S B K'|? ? ? ? ? ? S B K'];
      [exact P| | |]; exfalso; exact (Hq _ _ _ _ _ _ j S B K' Hj Kp).
  - now rewrite (get_unkept h s _ V Hi Kp).
Qed.
Print Assumptions C113_quiet.

(** * Rows and columns of CSR arrays *)

(** A slice of a CSR array with one axis first converts the whole array to COO and
    then slices the copy, which no other thread has. *)
Theorem C113_row_alone : forall h s ix,
  valid h s -> is_class CCSR s -> positive (shape_of s) -> ok_index ix (shape_of s) -> length (slice_shape ix (shape_of s)) = 1%nat ->
  exists xs s1 h1 s' h', run (copy_t s) h = (h, Ok xs) /\ copy_of CCOO s (unspecified_of s) xs h = Ok (s1, h1)
    /\ getitem h1 s1 ix = Ok (ISto s', h') /\ getitem h s ix = Ok (ISto s', h').
Proof.
  intros h s ix V Hc Hp Hok Hl. destruct s as [b|t|sh ind d|sh fi d|sh cr co d|sh ch a b c d|sh rd rsh rs ro d]; try contradiction.
  set (s := SCSR sh cr co d) in *. assert (Hne : slice_shape ix (shape_of s) <> []) by (intros Hn; rewrite Hn in Hl; discriminate).
  destruct (sparse_entries h s V I) as (E & HE). destruct (slicing_ok h s ix E HE Hp Hok Hne) as (nix & L & HS).
  destruct (getitem_sparse_slice_full h s E ix HE Hp Hok Hne) as (s' & h' & _ & G & _). pose proof G as G0.
  pose proof HE as (Hnn & Hl2 & _). assert (Hs : shape_of s <> []) by (cbn; destruct sh; [discriminate|discriminate]).
  destruct HS as [S1 S2 S3 _ _ _ _ _]. unfold s in G, S1, S2, S3. cbn [getitem shape_of strides_of data_buffer] in *.
  rewrite S1 in G. cbn [bind] in G. rewrite S2, S3 in G. cbn [bind] in G. unfold csr_get_slice in G.
  replace (zlen (slice_shape ix sh) =? 1) with true in G by (unfold zlen; cbn [shape_of s] in Hl; rewrite Hl; reflexivity). cbn [shape_of unspecified_of] in G.
  pose proof V as (f & Hr).
  assert (G1 : forall i, In i (cart (shape_of s)) -> get_value h (SrcSto s) i = Ok (f i)).
  { intros i Hi. apply In_cart in Hi. cbn [get_value]. destruct i as [|z i]; [apply Forall2_len in Hi; destruct (shape_of s); [congruence|discriminate]|].
    now apply repr_get. }
  assert (G2 : forall i, In i (cart (shape_of s)) -> flat_read h s i = Ok (lookup E (bunspec d) i)).
  { intros i Hi. apply In_cart in Hi. apply (flat_read_ok h s); assumption. }
  assert (G3 : forall i, In i (cart (shape_of s)) -> lookup E (bunspec d) i = f i).
  { intros i Hi. apply In_cart in Hi as Hb. pose proof (repr_get _ _ _ _ Hr Hb) as A. pose proof (repr_get _ _ _ _ (repr_entries _ _ _ HE) Hb) as B.
    rewrite A in B. injection B as B. symmetry. exact B. }
  assert (EB : copy_of CCOO s (unspecified_of s) (map f (cart (shape_of s))) h = coo_build (flat_read h s) sh (bunspec d) (bunspec d) h).
  { unfold copy_of. rewrite (build_eq CCOO _ (flat_read h s)); [reflexivity|]. intros i Hi.
    rewrite (G2 i Hi), (G3 i Hi). now apply value_read_ok. }
  destruct (coo_build_ok (flat_read h s) (lookup E (bunspec d)) sh (bunspec d) (bunspec d) h) as (ind & h1 & Eb & Hx & Ha & He).
  { exact Hnn. } { exact Hs. } { intros i Hi. apply G2. now apply In_cart. }
  rewrite Eb in EB. fold s in G. rewrite Eb in G. cbn [bind data_buffer] in G.
  eexists (map f (cart (shape_of s))), _, h1, s', h'. split; [rewrite (run_copy s h V Hs), (mapM_ok _ f) by exact G1; reflexivity|].
  split; [exact EB|]. split; [|exact G0]. cbn [getitem shape_of strides_of data_buffer]. rewrite S1. cbn [bind]. rewrite S2, S3. exact G.
Qed.
Print Assumptions C113_row_alone.

Theorem C113_row : forall programs h sched h' r rs s ix,
  Forall (Forall (flow_op h)) programs -> indices_untouched programs ->
  valid h s -> is_class CCSR s -> positive (shape_of s) -> ok_index ix (shape_of s) -> length (slice_shape ix (shape_of s)) = 1%nat ->
  (forall a, In a (index_addrs s) -> untouched programs a) ->
  exec sched h (copy_t s :: map thread programs) = (h', Ret r :: map Ret rs) ->
  exists xs s1 h1 s' h'', r = Ok xs /\ copy_of CCOO s (unspecified_of s) xs h' = Ok (s1, h1)
    /\ getitem h1 s1 ix = Ok (ISto s', h'')
    /\ is_class CCOO s' /\ shape_of s' = slice_shape ix (shape_of s) /\ unspecified_of s' = unspecified_of s
    /\ extends h' h'' /\ fresh h' s' /\ valid h'' s'
    /\ forall j, in_box j (slice_shape ix (shape_of s)) ->
         exists x, gives h (possible h programs) s (source_index ix (shape_of s) j) x /\ get_elem h'' s' j = Ok x.
Proof.
  intros programs h sched h' r rs s ix F HI V Hc Hp Hok Hl Hu H.
  assert (Hne : slice_shape ix (shape_of s) <> []) by (intros Hn; rewrite Hn in Hl; discriminate).
  assert (Hs : shape_of s <> []) by (destruct s; try contradiction; destruct V as (f & E & (_ & Hl2 & _) & _); cbn; intros ->; discriminate).
  destruct (C112_values programs h sched h' r rs s CCOO (unspecified_of s) F HI V Hs Hu H Hs ltac:(discriminate)) as (xs & -> & X).
  destruct X as (s1 & h1 & E1 & E2 & E3 & E4 & E5 & E6 & E7); [discriminate|].
  assert (V1 : valid h1 s1).
  { unfold copy_of in E1. pose proof V as (f0 & Hr0). pose proof (repr_nonneg _ _ _ Hr0) as Hn.
    destruct (copy_reads programs h sched h' _ rs s F HI V Hs Hu H) as (xs' & Exs & Lx & _). injection Exs as <-.
    set (g := fun i => match value_read (cart (shape_of s)) xs i with Ok x => x | Raise _ => VNone end).
    assert (Hg : forall i, in_box i (shape_of s) -> value_read (cart (shape_of s)) xs i = Ok (g i)).
    { intros i Hi. unfold g. apply In_cart in Hi. destruct (value_read_some _ xs i Hi Lx) as (x & ->). reflexivity. }
    destruct (build_values CCOO h' (shape_of s) (unspecified_of s) (unspecified_of s) g _ ltac:(discriminate) Hn Hg Hs)
      as (s2 & h2 & B1 & _ & _ & _ & _ & _ & B7). rewrite E1 in B1. injection B1 as <- <-. eexists; exact B7. }
  destruct (sparse_entries h1 s1 V1) as (E & HE); [destruct s1; try contradiction; exact I|].
  rewrite <- E3 in Hp, Hok, Hne.
  destruct (getitem_sparse_slice_full h1 s1 E ix HE Hp Hok Hne) as (s' & h'' & E' & G1 & G2 & G3 & G4 & G5 & G6 & G7 & G8 & _).
  exists xs, s1, h1, s', h''. split; [reflexivity|]. split; [exact E1|]. split; [exact G1|].
  split; [destruct s1; try contradiction; destruct s'; try contradiction; exact I|]. rewrite <- E3. split; [exact G2|]. split; [congruence|].
  split; [eapply extends_trans; eassumption|]. split; [eapply fresh_extends; eassumption|].
  assert (Hr : repr h'' s' (lookup E' (unspecified_of s'))) by now apply repr_entries.
  split; [eexists; exact Hr|]. intros j Hj.
  assert (Hi : in_box (source_index ix (shape_of s1) j) (shape_of s1)) by now apply source_index_in_box.
  rewrite E3 in Hi |- *. destruct (E7 _ Hi) as (x & Hx & Gx). exists x. split; [exact Hx|]. rewrite conv_value_id in Gx.
  rewrite (repr_get _ _ _ _ Hr) by now rewrite G2. rewrite G3.
  rewrite (wselects_lookup (unspecified_of s1) (shape_of s1) E (slice_shape ix (shape_of s1)) E' (source_index ix (shape_of s1)) j (entries_ordered _ _ _ HE)); [|rewrite <- G2; exact (entries_ordered _ _ _ G6)|exact G7|exact Hj].
  rewrite E3, <- Gx. symmetry. apply (repr_get _ _ _ _ (repr_entries _ _ _ HE)). now rewrite E3.
Qed.
Print Assumptions C113_row.

(** * Cases *)

(** [sparse_view[::-1]] is taken while two threads assign to it: it has values from
    before and from after the assignments. *)
Definition backwards : pyindex := XItem (ISlice (Sl None None (Some (-1)))).
Example C113_case :
  let programs := [[Assign sparse_view everything (SrcSeq (VSeq (map VInt [1; 2; 3; 4; 5; 6])))];
                   [Assign dense_view everything (SrcSto reversed_view)]] in
  Forall (Forall (flow_op shared_lists)) programs /\ indices_untouched programs
  /\ valid shared_lists sparse_view /\ own_slice sparse_view (slice_shape backwards (shape_of sparse_view))
  /\ positive (shape_of sparse_view) /\ ok_index backwards (shape_of sparse_view)
  /\ slice_shape backwards (shape_of sparse_view) <> []
  /\ (forall a, In a (index_addrs sparse_view) -> untouched programs a)
  /\ exists sched h' r rs, exec sched shared_lists (slice_t sparse_view backwards :: map unlabelled (map thread programs)) = (h', Ret r :: map Ret rs)
     /\ r = Ok [([0], VInt 30); ([3], VInt 3); ([5], VInt 1)].
Proof.
  destruct C112_case as (A1 & A2 & A3 & A4 & A5 & _). cbv zeta in *.
  split; [exact A1|]. split; [exact A2|]. split; [exact A3|]. split; [exact I|]. split; [repeat constructor; lia|].
  split; [split; [constructor; [discriminate|constructor]|right; cbn; lia]|]. split; [discriminate|]. split; [exact A5|].
  eexists (repeat 0 4 ++ repeat 1 30 ++ repeat 0 40 ++ repeat 2 30)%nat, _, _, [Ok []; Ok []].
  split; [vm_compute; reflexivity|reflexivity].
Qed.

(** [sparse_view[3:]] has one stored element, at position 2 of the data; the other
    thread assigns to positions 0 and 1. *)
Definition tail_part : pyindex := XItem (ISlice (Sl (Some 3) None None)).
Definition head_part : pyindex := XItem (ISlice (Sl None (Some 2) None)).
Example C113_quiet_case :
  let programs := [[Assign dense_view head_part (SrcSeq (VSeq (map VInt [7; 8])))]] in
  Forall (Forall (flow_op shared_lists)) programs /\ indices_untouched programs
  /\ (forall a, In a (index_addrs sparse_view) -> untouched programs a)
  /\ (forall t ix' value j a p i, stated programs (Assign t ix' value) -> in_box j (slice_shape ix' (shape_of t)) ->
       kept shared_lists t (source_index ix' (shape_of t) j) a p -> in_box i (slice_shape tail_part (shape_of sparse_view)) ->
       ~ kept shared_lists sparse_view (source_index tail_part (shape_of sparse_view) i) a p)
  /\ exists sched h' rs, exec sched shared_lists (slice_t sparse_view tail_part :: map unlabelled (map thread programs))
       = (h', Ret (Ok [([2], VInt 30)]) :: map Ret rs).
Proof.
  cbv zeta. match goal with |- _ /\ indices_untouched ?P /\ _ => set (programs := P) end.
  assert (U : forall t ix value, stated programs (Assign t ix value) -> t = dense_view /\ ix = head_part).
  { intros t ix value (ops & [<-|[]] & [Ho|[]]). injection Ho as <- <- _. now split. }
  split; [|split; [|split; [|split]]].
  - constructor; [|constructor]. constructor; [|constructor]. split; [exact dense_view_valid|]. split; [repeat constructor; lia|].
    split; [split; [constructor; [discriminate|constructor]|right; cbn; lia]|]. split; [exact I|].
    split; [reflexivity|]. split; [discriminate|]. repeat constructor.
  - intros o s a (ops & [<-|[]] & [<-|[]]) [<-|[]] [].
  - intros a Ha t ix value Hs. destruct (U _ _ _ Hs) as [-> _]. cbn in Ha. destruct Ha as [<-|[]]. discriminate.
  - intros t ix' value j a p i Hs Hj Hk Hi. destruct (U _ _ _ Hs) as [-> ->].
    change (in_box j [2]) in Hj. change (in_box i [3]) in Hi. apply box1 in Hj as (x & -> & Hx). apply box1 in Hi as (y & -> & Hy).
    inversion Hk as [|? ? E1 E2 E3|s0 d0 E0 i0 k0 HE0|]; subst; [|destruct HE0]. intros Hk2.
    assert (Hy3 : y = 0 \/ y = 1 \/ y = 2) by lia.
    assert (B : forall k, 0 <= k < 6 -> in_box [k] (shape_of sparse_view)) by (intros k Hk'; constructor; [exact Hk'|constructor]).
    destruct Hy3 as [-> | [-> | ->]].
    + exact (kept_sparse _ _ _ _ [3] sparse_view_entries eq_refl (B 3 ltac:(lia)) eq_refl _ _ Hk2).
    + exact (kept_sparse _ _ _ _ [4] sparse_view_entries eq_refl (B 4 ltac:(lia)) eq_refl _ _ Hk2).
    + assert (K5 : kept shared_lists sparse_view [5] 0 2).
      { apply (k_sparse shared_lists sparse_view (Buf 3 0 0 (VInt 0)) _ [5] 2 sparse_view_entries eq_refl); [cbn; lia|reflexivity]. }
      destruct (kept_unique _ _ _ _ _ _ _ (B 5 ltac:(lia)) sparse_view_valid Hk2 K5) as [_ Ep].
      assert (Hx2 : x = 0 \/ x = 1) by lia. destruct Hx2 as [-> | ->]; discriminate.
  - eexists (repeat 0 4 ++ repeat 1 30 ++ repeat 0 40)%nat, _, [Ok []]. vm_compute. reflexivity.
Qed.

(** Column 1 of the CSR array [[0, 4], [5, 0]], taken while another thread assigns
    to its second row. *)
Definition table_lists : heap := [map VInt [4; 5]; map VInt [0; 1; 2]; map VInt [1; 0]].
Definition table : storage := SCSR [2; 2] (Buf 3 0 1 VNone) (Buf 2 0 2 VNone) (Buf 2 0 0 (VInt 0)).
Definition column_1 : pyindex := XTuple [ISlice (Sl None None None); IInt 1].
Lemma table_entries : entries table_lists table [([0; 1], VInt 4); ([1; 0], VInt 5)].
Proof.
  refine (proj1 (csr_entries table_lists 2 2 (Buf 3 0 1 VNone) (Buf 2 0 2 VNone) (Buf 2 0 0 (VInt 0)) _ _ _ _ _ _ _ _ _ _)).
  - repeat constructor; lia.
  - split; [repeat constructor; cbn; lia|]. repeat constructor; cbn; lia.
  - eexists. repeat split; try reflexivity; cbn; lia.
  - eexists. repeat split; try reflexivity; cbn; lia.
  - eexists. repeat split; try reflexivity; cbn; lia.
  - discriminate.
  - discriminate.
  - reflexivity.
  - reflexivity.
Qed.
Example C113_row_case :
  let programs := [[Assign table (XItem (IInt 1)) (SrcSeq (VSeq (map VInt [8; 9])))]] in
  Forall (Forall (flow_op table_lists)) programs /\ indices_untouched programs
  /\ valid table_lists table /\ is_class CCSR table /\ positive (shape_of table) /\ ok_index column_1 (shape_of table)
  /\ length (slice_shape column_1 (shape_of table)) = 1%nat
  /\ (forall a, In a (index_addrs table) -> untouched programs a)
  /\ exists sched h' rs, exec sched table_lists (copy_t table :: map thread programs)
       = (h', Ret (Ok (map VInt [0; 4; 8; 0])) :: map Ret rs).
Proof.
  cbv zeta. match goal with |- _ /\ indices_untouched ?P /\ _ => set (programs := P) end.
  assert (V : valid table_lists table) by (eexists; exact (repr_entries _ _ _ table_entries)).
  assert (U : forall t ix value, stated programs (Assign t ix value) -> t = table).
  { intros t ix value (ops & [<-|[]] & [Ho|[]]). now injection Ho as <- _ _. }
  split; [|split; [|split; [exact V|split; [exact I|split; [repeat constructor; lia|split; [|split; [reflexivity|split]]]]]]].
  - constructor; [|constructor]. constructor; [|constructor]. split; [exact V|]. split; [repeat constructor; lia|].
    split; [split; [constructor; [exact I|constructor]|right; cbn; lia]|]. split; [split; [exact I|discriminate]|].
    split; [reflexivity|]. split; [discriminate|]. repeat constructor.
  - intros o s a (ops & [<-|[]] & [<-|[]]) [<-|[]] Ha t ix value Hs. rewrite (U _ _ _ Hs). destruct Ha as [<-|[<-|[]]]; discriminate.
  - split; [constructor; [discriminate|constructor; [exact I|constructor]]|cbn; lia].
  - intros a Ha t ix value Hs. rewrite (U _ _ _ Hs). destruct Ha as [<-|[<-|[]]]; discriminate.
  - eexists (repeat 1 40 ++ repeat 0 60)%nat, _, [Ok []]. vm_compute. reflexivity.
Qed.

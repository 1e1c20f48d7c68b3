(** C104: what a for loop over elements() sees when its body changes arrays. *)
From Coq Require Import ZifyBool.
From Verif Require Import Py SliceTools Basics Storage Spec SliceFacts IndexFacts
  CompressFacts ReduceFacts SolverFacts SolveFacts Repr ReprFacts ViewFacts BuildFacts SparseFacts
  ConvFacts FromFacts DMFacts ReadFacts MapFacts ChainFacts WriteFacts EffectFacts PropRead PropWrite PropFail.

(** [for index, value in s.elements(): body]: Storage.elements, storage.py:405-409,
    with the indices_and_data_position methods 592-595 (Buffer), 637-640
    (Strided), 713-716, 792-798, 862-866 (the sparse classes) and 1072-1078 (DM).
    Every item is computed from the heap that the previous runs of the body left. *)
Definition elements_gen (s : storage) : generator (key * pyval) :=
  fun body =>
    match s with
    | SBuffer b =>
        for_each (zrange (boff b) (boff b + bsize b)) (fun h p =>
          eval h (l <- cell h (baddr b) ;; pyget l p) (fun v => body h (KInt (p - boff b), v)))
    | SStrided t =>
        strided_slice_gen (sshape t) (sstrides t) 0 (fun h item =>
          eval h (buf_get h (sdata t) (snd item)) (fun v => body h (KTup (fst item), v)))
    | SDM sh rdims rshapes rstrides roffset d =>
        dm_gen sh rdims rshapes rstrides roffset (fun h item =>
          eval h (get_elem h d (snd item)) (fun v => body h (KTup (fst item), v)))
    | _ => fun h =>
        eval h (data_buffer s) (fun d =>
          sparse_gen s (fun h item =>
            eval h (buf_get h d (snd item)) (fun v => body h (KTup (fst item), v))) h)
    end.

(** The index object made of a key: s[i] for a Buffer, s[i, j, ...] otherwise. *)
Definition key_index (k : key) : pyindex :=
  match k with KInt z => XItem (IInt z) | KTup l => int_tuple l end.

(** The element s[key] in heap [h]. *)
Definition current (h : heap) (s : storage) (k : key) : res pyval :=
  '(it, _) <- getitem h s (key_index k) ;; item_val it.

(** From [h] to [h'] the index lists of [s] stay what they are and its data list
    keeps its length; everything else may change. *)
Definition keeps (s : storage) (h h' : heap) : Prop :=
  (forall a, In a (index_addrs s) -> nth_error h' a = nth_error h a)
  /\ (forall l, nth_error h (data_addr s) = Some l ->
        exists l', nth_error h' (data_addr s) = Some l' /\ length l' = length l).

Lemma keeps_refl s h : keeps s h h.
Proof. split; eauto. Qed.

Lemma keeps_trans s h1 h2 h3 : keeps s h1 h2 -> keeps s h2 h3 -> keeps s h1 h3.
Proof.
  intros [A1 B1] [A2 B2]. split.
  - intros a Ha. now rewrite A2, A1.
  - intros l Hl. destruct (B1 l Hl) as (l1 & H1 & E1). destruct (B2 l1 H1) as (l2 & H2 & E2).
    exists l2. split; [exact H2|congruence].
Qed.

(** ** Such changes keep the array well formed *)
Lemma entries_keeps h h' s E : entries h s E -> keeps s h h' ->
  exists E', entries h' s E' /\ map fst E' = map fst E.
Proof.
  intros HE [Hi Hd]. destruct (entries_data h s E HE) as (d & Ed & Hh & _ & Ha).
  pose proof Hh as (l & Hl & _). rewrite Ha in Hl. destruct (Hd l Hl) as (l' & Hl' & Len).
  destruct (entries_relist h s E l l' HE Hl Len) as (d1 & Ed1 & HE'). rewrite Ed in Ed1. injection Ed1 as <-.
  exists (revalue (boff d) l' E). split; [|apply revalue_fst].
  eapply entries_frame; [|exact HE'].
  assert (Lt : (data_addr s < length h)%nat) by (apply nth_error_Some; congruence).
  intros a [<-|Hin].
  - rewrite set_nth_error_same by exact Lt. exact Hl'.
  - rewrite set_nth_error_other; [now apply Hi|]. intros ->. now apply (entries_separate h s E HE).
Qed.

Lemma valid_keeps : forall s h h', valid h s -> keeps s h h' -> valid h' s.
Proof.
  induction s as [b|t|sh ind d|sh fi d|sh cr co d|sh ch a b c d|sh rd rsh rs ro d IH]; intros h h' [f Hr] Hk.
  - destruct Hr as (vs & (l & Hl & Ho & Hs & He & Hv) & _). destruct Hk as [_ Hd]. destruct (Hd l Hl) as (l' & Hl' & Len).
    set (vs' := firstn (length vs) (skipn (Z.to_nat (boff b)) l')).
    assert (Lv : length vs' = length vs).
    { unfold vs'. rewrite firstn_length, skipn_length. unfold zlen in *. lia. }
    exists (fun i => nth (Z.to_nat (hd 0 i)) vs' VNone). exists vs'. split; [|reflexivity].
    exists l'. unfold zlen in *. rewrite Lv, Len. repeat split; auto.
  - destruct Hr as (l & Hl & Ht & _). destruct Hk as [_ Hd]. destruct (Hd l Hl) as (l' & Hl' & Len).
    exists (fun i => nth (Z.to_nat (spos t i)) l' VNone). exists l'. split; [exact Hl'|]. split; [|reflexivity].
    destruct Ht. constructor; auto. unfold zlen in *. now rewrite Len.
  - destruct Hr as (E & HE & _). destruct (entries_keeps _ _ _ _ HE Hk) as (E' & HE' & _). eexists. exact (repr_entries _ _ _ HE').
  - destruct Hr as (E & HE & _). destruct (entries_keeps _ _ _ _ HE Hk) as (E' & HE' & _). eexists. exact (repr_entries _ _ _ HE').
  - destruct Hr as (E & HE & _). destruct (entries_keeps _ _ _ _ HE Hk) as (E' & HE' & _). eexists. exact (repr_entries _ _ _ HE').
  - destruct Hr as (E & [] & _).
  - destruct Hr as (g & Hg & Hd & _). destruct (IH h h' (ex_intro _ g Hg) Hk) as (g' & Hg').
    exists (fun i => g' (dm_index rd rs ro i)). exists g'. auto.
Qed.

(** ** Loops under an invariant of the body *)
Definition steady {X} (I : heap -> Prop) (body : heap -> X -> outcome) : Prop :=
  forall h x, I h -> I (fst (body h x)).

Lemma steady_eval {X A} (I : heap -> Prop) (m : heap -> X -> res A) (k : heap -> X -> A -> outcome) :
  (forall h x a, I h -> I (fst (k h x a))) -> steady I (fun h x => eval h (m h x) (k h x)).
Proof. intros H h x Hi. destruct (m h x); cbn [eval]; [now apply H|exact Hi]. Qed.

Lemma for_each_ext_in {X} (I : heap -> Prop) (f g : heap -> X -> outcome) : forall l,
  steady I g -> (forall h x, I h -> In x l -> f h x = g h x) ->
  forall h, I h -> for_each l f h = for_each l g h.
Proof.
  induction l as [|x l IH]; intros Hs E h Hi; cbn [for_each]; [reflexivity|].
  rewrite (E h x Hi (or_introl eq_refl)). pose proof (Hs h x Hi) as H. destruct (g h x) as [h1 [?|?]]; [|reflexivity].
  cbn [fst] in H. apply IH; auto. intros h2 y H2 Hy. apply E; [exact H2|]. now right.
Qed.

Lemma for_each_map {X Y} (f : X -> Y) (g : heap -> Y -> outcome) : forall l h,
  for_each (map f l) g h = for_each l (fun h x => g h (f x)) h.
Proof.
  induction l as [|x l IH]; intros h; cbn [map for_each]; [reflexivity|].
  destruct (g h (f x)) as [h1 [?|?]]; [apply IH|reflexivity].
Qed.

Lemma steady_for_each {X} (I : heap -> Prop) (g : heap -> X -> outcome) : forall l,
  steady I g -> forall h, I h -> I (fst (for_each l g h)).
Proof.
  induction l as [|x l IH]; intros Hs h Hi; cbn [for_each]; [exact Hi|].
  pose proof (Hs h x Hi) as H. destruct (g h x) as [h1 [?|?]]; cbn [fst] in *; [now apply IH|exact H].
Qed.

(** Items computed by [m], which the invariant fixes. *)
Lemma for_each_fixed {X Y} (I : heap -> Prop) h0 (m : heap -> X -> res Y) (body : heap -> Y -> outcome) : forall l L,
  steady I body -> (forall h x, I h -> m h x = m h0 x) -> mapM (m h0) l = Ok L ->
  forall h, I h -> for_each l (fun h x => eval h (m h x) (body h)) h = for_each L body h.
Proof.
  induction l as [|x l IH]; intros L Hs Hm E h Hi; cbn [mapM] in E.
  - injection E as <-. reflexivity.
  - destruct (m h0 x) as [y|] eqn:Ex; cbn [bind] in E; [|discriminate].
    destruct (mapM (m h0) l) as [ys|] eqn:El; cbn [bind] in E; [|discriminate]. injection E as <-.
    cbn [for_each]. rewrite (Hm h x Hi), Ex. cbn [eval].
    pose proof (Hs h y Hi) as H. destruct (body h y) as [h1 [?|?]]; [|reflexivity]. cbn [fst] in H.
    now apply (IH ys).
Qed.

Lemma cell_same h h' a : nth_error h' a = nth_error h a -> cell h' a = cell h a.
Proof. unfold cell. now intros ->. Qed.

Lemma buf_int_same h h' b i : nth_error h' (baddr b) = nth_error h (baddr b) -> buf_int h' b i = buf_int h b i.
Proof. intros E. unfold buf_int, buf_get. now rewrite (cell_same h h'). Qed.

Lemma strided_int_same h h' t ix : nth_error h' (baddr (sdata t)) = nth_error h (baddr (sdata t)) ->
  strided_int h' t ix = strided_int h t ix.
Proof.
  intros E. unfold strided_int, strided_getitem, buf_get, buf_slice, mk_buffer.
  destruct (normalize_index ix (sshape t)) as [nix|]; cbn [bind]; [|reflexivity].
  destruct (is_element_index nix (sshape t)).
  - destruct (get_position _ _ _); cbn [bind]; [|reflexivity]. now rewrite (cell_same h h').
  - destruct (index_strided _ _ _ _) as [[[? ?] ?]|]; cbn [bind]; [|reflexivity].
    now rewrite (cell_same h h').
Qed.

Lemma sparse_gen_list h0 s L body : sparse_iad h0 s = Ok L -> steady (keeps s h0) body ->
  forall h, keeps s h0 h -> sparse_gen s body h = for_each L body h.
Proof.
  intros E Hs h Hk. destruct s; cbn [sparse_iad sparse_gen] in *; try discriminate.
  - unfold coo_iad in E. unfold coo_gen.
    destruct (pyget (sshape indices) 1) as [n|]; cbn [bind eval] in *; [|discriminate].
    destruct (pyget (sshape indices) 0) as [rows|]; cbn [bind] in *; [|discriminate].
    rewrite <- (for_each_fixed _ h0 (fun h pos =>
       ix <- mapM (fun j => strided_int h indices (int_tuple [j; pos])) (zseq rows) ;; Ok (ix, pos)) body (zseq n) L Hs);
      [|idtac|exact E|exact Hk].
    + apply for_each_ext. intros h1 z. apply (eval_bind h1 _ (fun ix => (ix, z)) (body h1)).
    + intros h1 x [Hi _]. f_equal. apply mapM_ext_in. intros j _. apply strided_int_same, Hi. now left.
  - unfold flatcoo_iad in E. unfold flatcoo_gen.
    destruct (init_diophantine (make_strides shape) (Some shape)) as [sd|]; cbn [bind eval] in *; [|discriminate].
    rewrite <- (for_each_fixed _ h0 (fun h pos =>
          f <- buf_int h findices pos ;; i <- solve_index_data f shape sd ;;
          match i with Some ix => Ok (ix, pos) | None => Raise TypeError end) body (zseq (bsize findices)) L Hs);
      [|idtac|exact E|exact Hk].
    + apply for_each_ext. intros h1 z. destruct (buf_int h1 findices z) as [f|]; cbn [bind eval]; [|reflexivity].
      destruct (solve_index_data f shape sd) as [[ix|]|]; reflexivity.
    + intros h1 x [Hi _]. f_equal. apply buf_int_same, Hi. now left.
  - unfold csr_iad in E. unfold csr_gen.
    destruct (pyget shape 0) as [n|]; cbn [bind eval] in *; [|discriminate].
    revert L E h Hk. induction (zseq n) as [|r rows IH]; intros L E h Hk; cbn [csr_iad_rows for_each] in *.
    { injection E as <-. reflexivity. }
    assert (S1 : forall h1 i, keeps (SCSR shape crow col data) h0 h1 -> buf_int h1 crow i = buf_int h0 crow i)
      by (intros h1 i [Hi _]; apply buf_int_same, Hi; now left).
    assert (S2 : forall h1 i, keeps (SCSR shape crow col data) h0 h1 -> buf_int h1 col i = buf_int h0 col i)
      by (intros h1 i [Hi _]; apply buf_int_same, Hi; right; now left).
    rewrite !(S1 h) by exact Hk.
    destruct (buf_int h0 crow r) as [x|]; cbn [bind] in *; [|discriminate].
    destruct (buf_int h0 crow (r + 1)) as [y|]; cbn [bind] in *; [|discriminate].
    destruct (mapM _ (zrange x y)) as [l|] eqn:El; cbn [bind] in E; [|discriminate].
    destruct (csr_iad_rows h0 crow col rows) as [rest|]; cbn [bind] in E; [|discriminate]. injection E as <-.
    cbn [eval].
    assert (Hy : for_each (zrange x y) (fun h pos => eval h (buf_int h col pos) (fun c => body h ([r; c], pos))) h
                 = for_each l body h).
    { rewrite <- (for_each_fixed _ h0 (fun h pos => c <- buf_int h col pos ;; Ok ([r; c], pos)) body (zrange x y) l Hs);
        [|idtac|exact El|exact Hk].
      - apply for_each_ext. intros h1 z. apply (eval_bind h1 _ (fun c => ([r; c], z)) (body h1)).
      - intros h1 z H1. now rewrite S2. }
    rewrite Hy, for_each_app. pose proof (steady_for_each _ body l Hs h Hk) as H1.
    destruct (for_each l body h) as [h1 [?|?]]; [|reflexivity]. cbn [fst] in H1. now apply IH.
Qed.

(** ** The loop runs over the elements as they are when it reaches them *)

Lemma current_tuple h s f i : repr h s f -> in_box i (shape_of s) -> current h s (KTup i) = Ok (f i).
Proof. exact (repr_get h s f i). Qed.

Lemma current_buffer h b f x : repr h (SBuffer b) f -> 0 <= x < bsize b -> current h (SBuffer b) (KInt x) = Ok (f [x]).
Proof.
  intros (vs & Hh & Hf) Hx. assert (Hs : bsize b = zlen vs) by (destruct Hh as (l & _ & _ & Hs & _); exact Hs).
  unfold current, key_index. cbn [getitem]. unfold buffer_getitem. cbn [buf_complete_index bind].
  rewrite (buf_get_ok _ _ _ _ Hh) by lia. cbn [bind item_val]. now rewrite Hf by lia.
Qed.

Lemma current_entry h s E e : entries h s E -> In e E -> current h s (KTup (fst e)) = Ok (snd e).
Proof.
  intros HE He. pose proof (entries_ordered h s E HE) as Ho.
  rewrite (current_tuple h s _ (fst e) (repr_entries h s E HE)).
  - f_equal. destruct e as [i x]. cbn [fst snd]. eapply In_lookup; [exact (ordered_NoDup _ _ Ho)|exact He].
  - destruct Ho as [Hb _]. rewrite Forall_forall in Hb. now apply Hb.
Qed.

(** The sparse classes. *)
Lemma sparse_loop h s E l body : entries h s E -> positive (shape_of s) -> elements h s = Ok l ->
  (forall h1 x, keeps s h h1 -> keeps s h (fst (body h1 x))) ->
  eval h (data_buffer s) (fun d => sparse_gen s (fun h item =>
       eval h (buf_get h d (snd item)) (fun v => body h (KTup (fst item), v))) h)
    = for_each (map fst l) (fun h1 k => eval h1 (current h1 s k) (fun v => body h1 (k, v))) h
  /\ forall h1 k, keeps s h h1 -> In k (map fst l) -> exists v, current h1 s k = Ok v.
Proof.
  intros HE Hp El Hb. rewrite (elements_sparse h s E HE Hp) in El. injection El as <-. rewrite map_map. cbn [fst].
  rewrite <- (map_map fst KTup E). destruct (entries_data h s E HE) as (d & Ed & _).
  assert (C : forall h1 i p, keeps s h h1 -> In (i, p) (numbered E) ->
            exists v, current h1 s (KTup i) = Ok v /\ buf_get h1 d p = Ok v).
  { intros h1 i p H1 Hin. apply In_numbered in Hin as [Hr Hi].
    destruct (entries_keeps h h1 s E HE H1) as (E1 & HE1 & F1).
    destruct (entries_data h1 s E1 HE1) as (d1 & Ed1 & Hh & _). rewrite Ed in Ed1. injection Ed1 as <-.
    assert (L1 : length E1 = length E) by (rewrite <- (map_length fst E1), F1; apply map_length).
    set (e := nth (Z.to_nat p) E1 ([], VNone)).
    assert (Fe : fst e = i).
    { unfold e. rewrite Hi, <- (map_nth fst E1), F1, (map_nth fst E). reflexivity. }
    assert (Hin : In e E1) by (apply nth_In; unfold zlen in *; lia).
    exists (snd e). rewrite <- Fe. split; [now apply (current_entry h1 s E1)|].
    rewrite (buf_get_ok _ _ _ _ Hh) by (rewrite zlen_map; unfold zlen in *; lia). f_equal.
    unfold e. rewrite nth_map_snd. reflexivity. }
  split.
  - rewrite Ed. cbn [eval].
    rewrite (sparse_gen_list h s (numbered E)); [|now apply sparse_iad_ok| |apply keeps_refl].
    + rewrite <- (numbered_fst E), map_map, for_each_map.
      apply (for_each_ext_in (keeps s h)); [|idtac|apply keeps_refl].
      * intros h1 e H1. destruct (current h1 s (KTup (fst e))); cbn [eval]; [now apply Hb|exact H1].
      * intros h1 [i p] H1 Hin. cbn [fst snd]. destruct (C h1 i p H1 Hin) as (v & -> & ->). reflexivity.
    + intros h1 e H1. destruct (buf_get h1 d (snd e)); cbn [eval]; [now apply Hb|exact H1].
  - intros h1 k H1 Hk. apply in_map_iff in Hk as (i & <- & Hi). rewrite <- (numbered_fst E) in Hi.
    apply in_map_iff in Hi as ([j p] & <- & Hin). destruct (C h1 j p H1 Hin) as (v & Ev & _). eauto.
Qed.

Theorem C104_loop : forall h s l body,
  valid h s -> (is_sparse s -> positive (shape_of s)) -> elements h s = Ok l ->
  (forall h1 x, keeps s h h1 -> keeps s h (fst (body h1 x))) ->
  elements_gen s body h
    = for_each (map fst l) (fun h1 k => eval h1 (current h1 s k) (fun v => body h1 (k, v))) h
  /\ forall h1 k, keeps s h h1 -> In k (map fst l) -> exists v, current h1 s k = Ok v.
Proof.
  intros h s l body [f Hr] Hp El Hb.
  assert (V : forall h1, keeps s h h1 -> exists g, repr h1 s g) by (intros h1; apply valid_keeps; now exists f).
  assert (Hst : steady (keeps s h) (fun h1 k => eval h1 (current h1 s k) (fun v => body h1 (k, v)))).
  { apply (steady_eval _ (fun h1 k => current h1 s k) (fun h1 k v => body h1 (k, v))). intros h1 k v. apply Hb. }
  destruct s as [b|t|sh ind d|sh fi d|sh cr co d|sh ch a b c d|sh rd rsh rs ro d].
  - rewrite (elements_buffer h b f Hr) in El. injection El as <-. rewrite map_map. cbn [fst].
    assert (C : forall h1 x, keeps (SBuffer b) h h1 -> In x (zseq (bsize b)) ->
              exists v, current h1 (SBuffer b) (KInt x) = Ok v /\ (l <- cell h1 (baddr b) ;; pyget l (boff b + x)) = Ok v).
    { intros h1 x H1 Hx. apply In_zseq in Hx. destruct (V h1 H1) as (g & Hg). exists (g [x]).
      split; [now apply current_buffer|]. destruct Hg as (vs & Hh & Hf).
      pose proof Hh as (l & Hl & Ho & Hs & He & Hv). rewrite (cell_ok _ _ _ Hl). cbn [bind].
      rewrite (pyget_ok _ _ VNone) by lia. rewrite Hf by lia. now rewrite (holds_nth h1 b vs l x Hl Hh) by lia. }
    split.
    + cbn [elements_gen].
      replace (zrange (boff b) (boff b + bsize b)) with (map (fun x => boff b + x) (zseq (bsize b))).
      2:{ unfold zrange. replace (boff b + bsize b - boff b) with (bsize b) by lia. unfold zseq. now rewrite map_map. }
      rewrite !for_each_map.
      apply (for_each_ext_in (keeps (SBuffer b) h)); [|idtac|apply keeps_refl].
      * intros h1 x H1. apply Hst, H1.
      * intros h1 x H1 Hx. destruct (C h1 x H1 Hx) as (v & -> & ->). cbn [eval].
        replace (boff b + x - boff b) with x by lia. reflexivity.
    + intros h1 k H1 Hk. apply in_map_iff in Hk as (x & <- & Hx). destruct (C h1 x H1 Hx) as (v & Ev & _). eauto.
  - rewrite (elements_dense h _ f Hr I) in El. injection El as <-. rewrite map_map. cbn [fst shape_of].
    assert (C : forall h1 i, keeps (SStrided t) h h1 -> In i (cart (sshape t)) ->
              exists v, current h1 (SStrided t) (KTup i) = Ok v
                        /\ (p <- get_position i (sshape t) (sstrides t) ;; buf_get h1 (sdata t) (0 + p)) = Ok v).
    { intros h1 i H1 Hi. apply In_cart in Hi. destruct (V h1 H1) as (g & Hg). exists (g i).
      split; [now apply current_tuple|]. destruct Hg as (l & Hl & Ht & Hf).
      rewrite get_position_ok by (try (now apply in_box_len); apply Ht). cbn [bind]. unfold buf_get. rewrite (cell_ok _ _ _ Hl). cbn [bind].
      pose proof (so_pos t l Ht i Hi) as Hx. pose proof (so_end t l Ht). unfold spos in *.
      rewrite (pyget_ok _ _ VNone) by lia. rewrite Hf by exact Hi. reflexivity. }
    split.
    + cbn [elements_gen]. unfold strided_slice_gen. rewrite for_each_map.
      apply (for_each_ext_in (keeps (SStrided t) h)); [|idtac|apply keeps_refl].
      * intros h1 x H1. apply Hst, H1.
      * intros h1 i H1 Hi. destruct (C h1 i H1 Hi) as (v & -> & E).
        destruct (get_position i (sshape t) (sstrides t)) as [p|]; cbn [bind eval fst snd] in *; [|discriminate].
        rewrite E. reflexivity.
    + intros h1 k H1 Hk. apply in_map_iff in Hk as (x & <- & Hx). destruct (C h1 x H1 Hx) as (v & Ev & _). eauto.
  - destruct Hr as (E & HE & _). exact (sparse_loop h _ E l body HE (Hp I) El Hb).
  - destruct Hr as (E & HE & _). exact (sparse_loop h _ E l body HE (Hp I) El Hb).
  - destruct Hr as (E & HE & _). exact (sparse_loop h _ E l body HE (Hp I) El Hb).
  - destruct Hr as (E & [] & _).
  - rewrite (elements_dense h _ f Hr I) in El. injection El as <-. rewrite map_map. cbn [fst shape_of].
    assert (C : forall h1 i, keeps (SDM sh rd rsh rs ro d) h h1 -> In i (cart sh) ->
              exists v, current h1 (SDM sh rd rsh rs ro d) (KTup i) = Ok v
                        /\ (r <- reduce_index rsh rd rs ro i ;; get_elem h1 d r) = Ok v).
    { intros h1 i H1 Hi. apply In_cart in Hi. destruct (V h1 H1) as (g & Hg). exists (g i).
      split; [now apply current_tuple|]. destruct Hg as (g0 & Hg0 & Hd & Hf). rewrite (dm_rshapes _ _ _ _ _ _ Hd).
      rewrite reduce_index_dm; [|apply (dm_rstrides _ _ _ _ _ _ Hd)| |apply (dm_roffset _ _ _ _ _ _ Hd)].
      - cbn [bind]. rewrite (repr_get h1 d g0) by (auto; now apply (dm_box _ _ _ _ _ _ Hd)). now rewrite Hf.
      - rewrite (in_box_zlen _ _ Hi). apply perm_axes, (dm_perm _ _ _ _ _ _ Hd). }
    split.
    + cbn [elements_gen]. unfold dm_gen. rewrite for_each_map.
      apply (for_each_ext_in (keeps (SDM sh rd rsh rs ro d) h)); [|idtac|apply keeps_refl].
      * intros h1 x H1. apply Hst, H1.
      * intros h1 i H1 Hi. destruct (C h1 i H1 Hi) as (v & -> & E).
        destruct (reduce_index rsh rd rs ro i) as [p|]; cbn [bind eval fst snd] in *; [|discriminate].
        rewrite E. reflexivity.
    + intros h1 k H1 Hk. apply in_map_iff in Hk as (x & <- & Hx). destruct (C h1 x H1 Hx) as (v & Ev & _). eauto.
Qed.
Print Assumptions C104_loop.

(** Assignments keep what the loop needs, unless they write to a list of indices
    of the array iterated over. *)
Theorem C104_assignments : forall h s t ix value,
  ~ In (data_addr t) (index_addrs s) -> keeps s h (fst (setitem h t ix value)).
Proof.
  intros h s t ix value Hn. destruct (setitem_frame t h ix value) as [_ Ho Hc]. split.
  - intros a Ha. apply Ho. intros ->. contradiction.
  - intros l Hl. destruct (Nat.eq_dec (data_addr s) (data_addr t)) as [E|E].
    + rewrite E in *. now apply Hc.
    + exists l. now rewrite Ho.
Qed.
Print Assumptions C104_assignments.

(** [for i, v in s.elements(): s[i] = f(v)] *)
Definition update (f : pyval -> pyval) (s : storage) : heap -> outcome :=
  elements_gen s (fun h x => setitem h s (key_index (fst x)) (SrcSeq (f (snd x)))).

Lemma update_loop h s l f : valid h s -> (is_sparse s -> positive (shape_of s)) -> elements h s = Ok l ->
  ~ In (data_addr s) (index_addrs s) ->
  update f s h = for_each (map fst l) (fun h1 k =>
     eval h1 (current h1 s k) (fun v => setitem h1 s (key_index k) (SrcSeq (f v)))) h.
Proof.
  intros Hv Hp El Hn. unfold update.
  destruct (C104_loop h s l (fun h x => setitem h s (key_index (fst x)) (SrcSeq (f (snd x)))) Hv Hp El) as [E _].
  - intros h1 x H1. eapply keeps_trans; [exact H1|]. now apply C104_assignments.
  - exact E.
Qed.

Definition key_list (k : key) : list Z := match k with KInt z => [z] | KTup l => l end.

(** One assignment to an element of a Buffer or Strided. *)
Lemma dense_put h s g k v : repr h s g -> elem_data s ->
  (match s, k with SBuffer b, KInt z => 0 <= z < bsize b | SStrided t, KTup i => in_box i (sshape t) | _, _ => False end) ->
  current h s k = Ok (g (key_list k))
  /\ exists h', setitem h s (key_index k) (SrcSeq v) = (h', Ok tt) /\ repr h' s (upd g (key_list k) v).
Proof.
  intros Hr Hs Hk. destruct s as [b|t| | | | | ]; try contradiction; destruct k as [z|i]; try contradiction; cbn [key_list key_index].
  - split; [now apply current_buffer|]. destruct (buffer_write_element h b g (XItem (IInt z)) z v Hr Hk eq_refl) as (h' & E1 & _ & E2). eauto.
  - split; [now apply current_tuple|]. pose proof (in_box_len _ _ Hk) as Hl.
    destruct (strided_write_element h t g (int_tuple i) v Hr (in_box_positive_shape _ _ Hk) (int_tuple_ok i _ Hl) (int_tuple_shape i _ Hl))
      as (h' & E1 & _ & E2). rewrite (int_tuple_source i _ Hk) in E2. eauto.
Qed.

Lemma dense_update s f : elem_data s -> forall ks h g, repr h s g -> NoDup (map key_list ks) ->
  Forall (fun k => match s, k with SBuffer b, KInt z => 0 <= z < bsize b | SStrided t, KTup i => in_box i (sshape t) | _, _ => False end) ks ->
  exists h' g', for_each ks (fun h1 k => eval h1 (current h1 s k) (fun v => setitem h1 s (key_index k) (SrcSeq (f v)))) h = (h', Ok tt)
    /\ repr h' s g' /\ (forall k, In k ks -> g' (key_list k) = f (g (key_list k)))
    /\ forall i, ~ In i (map key_list ks) -> g' i = g i.
Proof.
  intros Hs. induction ks as [|k ks IH]; intros h g Hr Hn Hk; cbn [for_each map] in *.
  - exists h, g. repeat split; auto. intros k [].
  - inversion Hn as [|? ? Hni Hn']; subst. inversion Hk as [|? ? H1 Hk']; subst.
    destruct (dense_put h s g k (f (g (key_list k))) Hr Hs H1) as (-> & h1 & E1 & R1). cbn [eval]. rewrite E1.
    destruct (IH h1 _ R1 Hn' Hk') as (h' & g' & F1 & F2 & F3 & F4). exists h', g'. split; [exact F1|]. split; [exact F2|].
    split.
    + intros k' [<-|Hin].
      * rewrite F4 by exact Hni. unfold upd. now rewrite lex_eqb_refl.
      * rewrite F3 by exact Hin. f_equal. unfold upd. destruct (lex_eqb (key_list k') (key_list k)) eqn:El; [|reflexivity].
        apply lex_eqb_eq in El. exfalso. apply Hni. rewrite <- El. now apply in_map.
    + intros i Hi. rewrite F4 by (intros Hin; apply Hi; now right). unfold upd. destruct (lex_eqb i (key_list k)) eqn:El; [|reflexivity].
      apply lex_eqb_eq in El. exfalso. apply Hi. now left.
Qed.

(** On a Buffer or a Strided the update loop applies [f] once to every element. *)
Theorem C104_update_partial : forall h s l f,
  valid h s -> match s with SBuffer _ | SStrided _ => True | _ => False end -> elements h s = Ok l ->
  exists h', update f s h = (h', Ok tt) /\ valid h' s
    /\ elements h' s = Ok (map (fun x => (fst x, f (snd x))) l).
Proof.
  intros h s l f [g Hr] Hs El. assert (Hd : elem_data s) by (destruct s; try contradiction; exact I).
  rewrite (update_loop h s l f); [|now exists g|destruct s; try contradiction; intros []|exact El|destruct s; try contradiction; intros []].
  destruct s as [b|t| | | | | ]; try contradiction.
  - rewrite (elements_buffer h b g Hr) in El. injection El as <-. rewrite !map_map. cbn [fst snd].
    destruct (dense_update (SBuffer b) f Hd (map KInt (zseq (bsize b))) h g Hr) as (h' & g' & E1 & E2 & E3 & _).
    + rewrite map_map. cbn [key_list]. apply FinFun.Injective_map_NoDup; [|apply NoDup_zseq]. intros x y E. now injection E.
    + apply Forall_forall. intros k Hin. apply in_map_iff in Hin as (x & <- & Hx). now apply In_zseq in Hx.
    + exists h'. split; [exact E1|]. split; [now exists g'|]. rewrite (elements_buffer h' b g' E2). f_equal.
      apply map_ext_in. intros x Hx. f_equal. apply (E3 (KInt x)). now apply in_map.
  - rewrite (elements_dense h _ g Hr I) in El. injection El as <-. rewrite !map_map. cbn [fst snd shape_of].
    destruct (dense_update (SStrided t) f Hd (map KTup (cart (sshape t))) h g Hr) as (h' & g' & E1 & E2 & E3 & _).
    + rewrite map_map. cbn [key_list]. rewrite map_id. apply sorted_NoDup, cart_sorted.
    + apply Forall_forall. intros k Hin. apply in_map_iff in Hin as (x & <- & Hx). now apply In_cart in Hx.
    + exists h'. split; [exact E1|]. split; [now exists g'|]. rewrite (elements_dense h' _ g' E2 I). f_equal. cbn [shape_of].
      apply map_ext_in. intros x Hx. f_equal. apply (E3 (KTup x)). now apply in_map.
Qed.
Print Assumptions C104_update_partial.

(** The arrays on which s[i] = v writes [v] to all stored elements: the sparse
    classes and DM over a Buffer or Strided. *)
Definition floods (s : storage) : Prop :=
  match s with
  | SCOO _ _ _ | SFlatCOO _ _ _ | SCSR _ _ _ _ => True
  | SDM _ _ _ _ _ (SBuffer _) | SDM _ _ _ _ _ (SStrided _) => True
  | _ => False
  end.

Lemma flood_step h s l k x v : valid h s -> floods s -> positive (shape_of s) -> elements h s = Ok l -> In (k, x) l ->
  current h s k = Ok x
  /\ exists h', setitem h s (key_index k) (SrcSeq v) = (h', Ok tt) /\ valid h' s
       /\ elements h' s = Ok (map (fun y => (fst y, v)) l).
Proof.
  intros [g Hr] Hs Hp El Hin.
  assert (Hc : is_sparse s \/ exists sh rd rsh rs ro d, s = SDM sh rd rsh rs ro d /\ elem_data d).
  { destruct s as [| | | | | |sh rd rsh rs ro d]; try contradiction; try (left; exact I). right.
    exists sh, rd, rsh, rs, ro, d. split; [reflexivity|]. destruct d; try contradiction; exact I. }
  destruct Hc as [Hc|(sh & rd & rsh & rs & ro & d & -> & Hd)].
  - destruct (sparse_entries h s g Hr Hc) as (E & HE & _).
    rewrite (elements_sparse h s E HE Hp) in El. injection El as <-.
    apply in_map_iff in Hin as ([i y] & E1 & Hin). injection E1 as <- <-. cbn [fst snd key_index].
    split; [exact (current_entry h s E (i, y) HE Hin)|].
    assert (Hb : in_box i (shape_of s)).
    { destruct (entries_ordered h s E HE) as [Hb _]. rewrite Forall_forall in Hb. exact (Hb _ Hin). }
    pose proof (in_box_len _ _ Hb) as Hl.
    destruct (sparse_write_element h s E (int_tuple i) v HE Hp (int_tuple_ok i _ Hl) (int_tuple_shape i _ Hl)) as (l' & F1 & F2).
    eexists. split; [exact F1|]. split; [eexists; exact (repr_entries _ _ _ F2)|].
    rewrite (elements_sparse _ s _ F2 Hp). unfold map_snd. now rewrite !map_map.
  - rewrite (elements_dense h _ g Hr I) in El. injection El as <-. cbn [shape_of] in *.
    apply in_map_iff in Hin as (i & E1 & Hin). injection E1 as <- <-. apply In_cart in Hin. cbn [key_index].
    split; [now apply current_tuple|]. pose proof (in_box_len _ _ Hin) as Hl.
    destruct (dm_write_element h sh rd rsh rs ro d g (int_tuple i) v Hr Hd Hp (int_tuple_ok i _ Hl) (int_tuple_shape i _ Hl)) as (h' & F1 & F2).
    exists h'. split; [exact F1|]. split; [eexists; exact F2|]. rewrite (elements_dense h' _ _ F2 I). cbn [shape_of]. now rewrite map_map.
Qed.

Lemma iter_shift (f : pyval -> pyval) v n : Nat.iter n f (f v) = Nat.iter (S n) f v.
Proof.
  induction n as [|n IH]; [reflexivity|].
  change (f (Nat.iter n f (f v)) = f (Nat.iter (S n) f v)). now f_equal.
Qed.

Lemma flood_loop s f : floods s -> positive (shape_of s) -> forall ks h l v, valid h s ->
  elements h s = Ok (map (fun k => (k, v)) l) -> incl ks l ->
  exists h', for_each ks (fun h1 k => eval h1 (current h1 s k) (fun v => setitem h1 s (key_index k) (SrcSeq (f v)))) h = (h', Ok tt)
    /\ valid h' s /\ elements h' s = Ok (map (fun k => (k, Nat.iter (length ks) f v)) l).
Proof.
  intros Hs Hp. induction ks as [|k ks IH]; intros h l v Hv El Hi; cbn [for_each length].
  - exists h. auto.
  - assert (Hin : In (k, v) (map (fun k => (k, v)) l)) by (apply in_map_iff; exists k; split; [reflexivity|apply Hi; now left]).
    destruct (flood_step h s _ k v (f v) Hv Hs Hp El Hin) as (-> & h1 & E1 & V1 & L1). cbn [eval]. rewrite E1.
    rewrite map_map in L1. cbn [fst] in L1.
    destruct (IH h1 l (f v) V1 L1) as (h' & F1 & F2 & F3); [intros z Hz; apply Hi; now right|].
    exists h'. split; [exact F1|]. split; [exact F2|]. rewrite F3. now rewrite iter_shift.
Qed.

(** There the loop leaves one value in all stored elements: [f] applied as many
    times as there are stored elements to the first of them. *)
Theorem C104_update_flooded : forall h s k v l f,
  valid h s -> floods s -> positive (shape_of s) -> elements h s = Ok ((k, v) :: l) ->
  exists h', update f s h = (h', Ok tt) /\ valid h' s
    /\ elements h' s = Ok (map (fun x => (fst x, Nat.iter (length ((k, v) :: l)) f v)) ((k, v) :: l)).
Proof.
  intros h s k v l f Hv Hs Hp El.
  rewrite (update_loop h s ((k, v) :: l) f Hv); [|auto|exact El|].
  2:{ destruct Hv as [g Hr]. destruct s as [b|t|sh ind d|sh fi d|sh cr co d|sh ch a b c d|sh rd rsh rs ro d]; try contradiction.
      1-3: destruct Hr as (E & HE & _); exact (entries_separate _ _ _ HE).
      destruct d; try contradiction; intros []. }
  cbn [map fst for_each].
  destruct (flood_step h s _ k v (f v) Hv Hs Hp El (or_introl eq_refl)) as (-> & h1 & E1 & V1 & L1). cbn [eval]. rewrite E1.
  destruct (flood_loop s f Hs Hp (map fst l) h1 (map fst ((k, v) :: l)) (f v) V1) as (h' & F1 & F2 & F3).
  - rewrite L1, map_map. reflexivity.
  - intros z Hz. now right.
  - exists h'. split; [exact F1|]. split; [exact F2|]. rewrite F3, map_map, map_length. now rewrite iter_shift.
Qed.
Print Assumptions C104_update_flooded.

(** On every DM array, whatever the class of its data.  [stored]: the elements
    that have a place in the data, which include all specified ones; the others
    keep reading the unspecified value [u].  After the assignment to the first
    index, with value [x], all stored elements hold [x]; what the next index
    gets is computed from [x] if that index is stored, else from [u], and so on:
    [last_given] is the value given to the last index. *)
Fixpoint last_given (f : pyval -> pyval) (u : pyval) (stored : list Z -> bool) (x : pyval) (l : list (list Z)) : pyval :=
  match l with
  | [] => x
  | i :: r => last_given f u stored (f (if stored i then x else u)) r
  end.

Lemma repr_separate : forall s h g, repr h s g -> ~ In (data_addr s) (index_addrs s).
Proof.
  induction s as [b|t|sh ind d|sh fi d|sh cr co d|sh ch a b c d|sh rd rsh rs ro d IH]; intros h g Hr.
  1-2: intros [].
  1-3: destruct Hr as (E & HE & _); exact (entries_separate _ _ _ HE).
  - destruct Hr as (E & [] & _).
  - destruct Hr as (g0 & Hg & _). exact (IH h g0 Hg).
Qed.

Theorem C104_update_dm : forall h s f i0 v0, valid h s -> is_dm s -> positive (shape_of s) ->
  i0 = repeat 0 (length (shape_of s)) -> get_elem h s i0 = Ok v0 ->
  exists (stored : list Z -> bool) rest h', cart (shape_of s) = i0 :: rest
    /\ (forall i, in_box i (shape_of s) -> stored i = true <-> placed h s i)
    /\ (forall i, in_box i (shape_of s) -> stored i = false -> get_elem h s i = Ok (unspecified_of s))
    /\ update f s h = (h', Ok tt) /\ valid h' s
    /\ forall i, in_box i (shape_of s) ->
         get_elem h' s i = Ok (if stored i then last_given f (unspecified_of s) stored (f v0) rest else unspecified_of s).
Proof.
  intros h s f i0 v0 [g Hr] Hs Hp E0 Ev0.
  destruct (overwrite_set s h g Hr (or_intror Hs) Hp) as (S & HS0 & HS1 & HS2). exists S.
  assert (Hin0 : in_box i0 (shape_of s)).
  { subst i0. clear - Hp. induction Hp; cbn [length repeat]; constructor; [lia|assumption]. }
  assert (Hc : exists rest, cart (shape_of s) = i0 :: rest).
  { subst i0. clear - Hp. induction Hp as [|n sh Hn Hp IH]; [exists []; reflexivity|].
    destruct IH as [r IH]. cbn [cart length repeat].
    destruct (zseq n) as [|z zs] eqn:Ez.
    - exfalso. assert (In 0 (zseq n)) by (apply In_zseq; lia). rewrite Ez in H. destruct H.
    - assert (z = 0) by (unfold zseq in Ez; destruct (Z.to_nat n) eqn:En; [discriminate|]; cbn in Ez; now injection Ez as <- _).
      subst z. cbn [flat_map]. rewrite IH. cbn [map app]. eauto. }
  destruct Hc as [rest Hc]. exists rest.
  assert (Hbox : forall i, In i (i0 :: rest) -> in_box i (shape_of s)) by (intros i Hi; rewrite <- Hc in Hi; now apply In_cart).
  assert (Hst : forall h1 i x, updated (data_addr s) h h1 -> in_box i (shape_of s) ->
     exists h2, setitem h1 s (int_tuple i) (SrcSeq x) = (h2, Ok tt) /\ updated (data_addr s) h h2
       /\ repr h2 s (fun i => if S i then x else unspecified_of s)).
  { intros h1 i x Hu Hi. pose proof (in_box_len _ _ Hi) as Hl.
    destruct (HS2 h1 Hu (int_tuple i) x (int_tuple_ok i _ Hl) (int_tuple_shape i _ Hl)) as (h2 & F1 & F2).
    exists h2. split; [exact F1|]. split; [|exact F2]. eapply updated_trans; [exact Hu|].
    pose proof (setitem_frame s h1 (int_tuple i) (SrcSeq x)) as F. now rewrite F1 in F. }
  assert (Hloop : forall l h1 x, updated (data_addr s) h h1 -> repr h1 s (fun i => if S i then x else unspecified_of s) ->
     (forall i, In i l -> in_box i (shape_of s)) ->
     exists h2, for_each (map KTup l) (fun h1 k => eval h1 (current h1 s k) (fun v => setitem h1 s (key_index k) (SrcSeq (f v)))) h1 = (h2, Ok tt)
       /\ repr h2 s (fun i => if S i then last_given f (unspecified_of s) S x l else unspecified_of s)).
  { induction l as [|i l IH]; intros h1 x Hu R1 Hb; cbn [map for_each last_given].
    - exists h1. auto.
    - rewrite (current_tuple h1 s _ i R1) by (apply Hb; now left). cbn [eval key_index].
      destruct (Hst h1 i (f (if S i then x else unspecified_of s)) Hu (Hb i (or_introl eq_refl))) as (h2 & -> & U2 & R2).
      apply IH; auto. intros j Hj. apply Hb. now right. }
  destruct (Hst h i0 (f v0) (updated_refl _ _) Hin0) as (h1 & F1 & U1 & R1).
  destruct (Hloop rest h1 (f v0) U1 R1) as (h' & F2 & R2); [intros i Hi; apply Hbox; now right|].
  exists h'. split; [exact Hc|]. split; [exact HS0|]. split.
  { intros i Hi Hf. rewrite (repr_get h s g) by auto. f_equal. now apply HS1. }
  split; [|split; [eexists; exact R2|intros i Hi; exact (repr_get h' s _ i R2 Hi)]].
  assert (El : elements h s = Ok (map (fun i => (KTup i, g i)) (cart (shape_of s)))).
  { destruct s; try contradiction. exact (elements_dense h _ g Hr I). }
  rewrite (update_loop h s _ f (ex_intro _ g Hr) (fun _ => Hp) El) by exact (repr_separate s h g Hr).
  rewrite map_map. cbn [fst]. rewrite Hc. cbn [map for_each].
  rewrite (current_tuple h s g i0 Hr Hin0). cbn [eval key_index].
  rewrite (repr_get h s g i0 Hr Hin0) in Ev0. injection Ev0 as ->. now rewrite F1.
Qed.
Print Assumptions C104_update_dm.

(** s = DM.fromobject([[1, None], [3, 4]], unspecified=100, storage_class=COO); for i, v in
    s.elements(): s[i] = v + 10.  11, then 110 from the second index, then 120, 130. *)
Example C104_update_dm_case : forall c, In c [CCOO; CFlatCOO; CCSR] ->
  ('(s, h) <- dm_fromobject [] (SrcSeq (VSeq [VSeq [VInt 1; VNone]; VSeq [VInt 3; VInt 4]])) (fo_unspecified (Some (VInt 100))) None None c ;;
   let '(h1, r) := update (fun v => match v with VInt z => VInt (z + 10) | _ => v end) s h in
   _ <- r ;; mapM (get_elem h1 s) (cart [2; 2]))
  = Ok [VInt 130; VInt 100; VInt 130; VInt 130].
Proof. intros c [<-|[<-|[<-|[]]]]; vm_compute; reflexivity. Qed.

(** s = X.fromobject([[1, 2], [3, 4]]); for i, v in s.elements(): s[i] = v + 10.
    A Strided ends with 11, 12, 13, 14; the others hold 41 everywhere. *)
Definition plus10 (v : pyval) : pyval := match v with VInt z => VInt (z + 10) | _ => v end.

Theorem C104_update_refuted : forall c, In c [CCOO; CFlatCOO; CCSR; CDM] ->
  exists s h h', fromobject c [] (SrcSeq nested_2x2) fo_default = Ok (s, h)
    /\ update plus10 s h = (h', Ok tt)
    /\ elements h s = Ok [(KTup [0; 0], VInt 1); (KTup [0; 1], VInt 2); (KTup [1; 0], VInt 3); (KTup [1; 1], VInt 4)]
    /\ elements h' s = Ok [(KTup [0; 0], VInt 41); (KTup [0; 1], VInt 41); (KTup [1; 0], VInt 41); (KTup [1; 1], VInt 41)].
Proof.
  intros c [<-|[<-|[<-|[<-|[]]]]]; eexists _, _, _;
    (split; [vm_compute; reflexivity|]); (split; [vm_compute; reflexivity|]);
    (split; [vm_compute; reflexivity|]); vm_compute; reflexivity.
Qed.
Print Assumptions C104_update_refuted.

Example C104_strided :
  ('(s, h) <- fromobject CStrided [] (SrcSeq nested_2x2) fo_default ;;
   let '(h1, r) := update plus10 s h in _ <- r ;; elements h1 s)
  = Ok [(KTup [0; 0], VInt 11); (KTup [0; 1], VInt 12); (KTup [1; 0], VInt 13); (KTup [1; 1], VInt 14)].
Proof. vm_compute. reflexivity. Qed.

(** The body sees the values of the moment: the second of two loops over one list. *)
Example C104_moment :
  ('(s, h) <- fromobject CStrided [] (SrcSeq nested_2x2) fo_default ;;
   '(t, h1) <- getitems h s [XTuple [ISlice (Sl None None (Some (-1))); INone]] ;;
   let '(h2, r) := elements_gen s (fun h x => setitem h t (key_index (fst x)) (SrcSeq (snd x))) h1 in
   _ <- r ;; elements h2 s)
  = Ok [(KTup [0; 0], VInt 1); (KTup [0; 1], VInt 2); (KTup [1; 0], VInt 1); (KTup [1; 1], VInt 2)].
Proof. vm_compute. reflexivity. Qed.

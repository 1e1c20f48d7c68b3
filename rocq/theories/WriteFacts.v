(** Assignment: what setitem changes, for every class. *)
From Coq Require Import Sorting.Sorted Permutation ZifyBool.
From Verif Require Import Py SliceTools Basics Storage Spec SliceFacts IndexFacts
  CompressFacts ReduceFacts SolverFacts SolveFacts Repr ReprFacts ViewFacts BuildFacts SparseFacts
  ConvFacts FromFacts DMFacts ReadFacts MapFacts ChainFacts.

(** * Frames *)

(** Only the list at [a] may have changed, and it kept its length. *)
Record updated (a : nat) (h h' : heap) : Prop := {
  up_len : length h' = length h;
  up_other : forall b, b <> a -> nth_error h' b = nth_error h b;
  up_cell : forall l, nth_error h a = Some l -> exists l', nth_error h' a = Some l' /\ length l' = length l }.

Lemma updated_refl a h : updated a h h.
Proof. constructor; eauto. Qed.

Lemma updated_trans a h1 h2 h3 : updated a h1 h2 -> updated a h2 h3 -> updated a h1 h3.
Proof.
  intros [L1 O1 C1] [L2 O2 C2]. constructor; [congruence| |].
  - intros b Hb. now rewrite O2, O1.
  - intros l Hl. destruct (C1 l Hl) as (l1 & H1 & E1). destruct (C2 l1 H1) as (l2 & H2 & E2).
    exists l2. split; [exact H2|congruence].
Qed.

Lemma set_nth_error_other {A} n m (v : A) l : m <> n -> nth_error (set_nth n v l) m = nth_error l m.
Proof.
  revert n m. induction l as [|x l IH]; intros [|n] [|m] H; cbn; try reflexivity; try lia.
  apply IH. lia.
Qed.

Lemma set_nth_error_same {A} n (v : A) l : (n < length l)%nat -> nth_error (set_nth n v l) n = Some v.
Proof. revert n. induction l as [|x l IH]; intros [|n] H; cbn in *; try lia; [reflexivity|]. apply IH. lia. Qed.

Lemma updated_set a h l l' : nth_error h a = Some l -> length l' = length l -> updated a h (set_nth a l' h).
Proof.
  intros Hl E. assert (Ha : (a < length h)%nat) by (apply nth_error_Some; congruence). constructor.
  - apply set_nth_length.
  - intros b Hb. now apply set_nth_error_other.
  - intros l0 H0. exists l'. split; [now apply set_nth_error_same|congruence].
Qed.

Lemma pyset_length {A} (l l' : list A) i v : pyset l i v = Ok l' -> length l' = length l.
Proof.
  unfold pyset. destruct ((_ <? 0) || _); [discriminate|]. intros E. injection E as <-. apply set_nth_length.
Qed.

Lemma buf_write_frame b h p v : updated (baddr b) h (fst (buf_write b h p v)).
Proof.
  unfold buf_write, buf_set, cell. destruct (nth_error h (baddr b)) as [l|] eqn:El; cbn [bind]; [|apply updated_refl].
  destruct (pyset l (boff b + p) v) as [l'|] eqn:Es; cbn [bind fst]; [|apply updated_refl].
  eapply updated_set; [exact El|]. eapply pyset_length; exact Es.
Qed.

(** * Loops over generators *)

(** The loop body may change only the list at [a]. *)
Definition framed {X} (a : nat) (body : heap -> X -> outcome) : Prop :=
  forall h x, updated a h (fst (body h x)).
Definition gframe {X} (g : generator X) : Prop :=
  forall a body, framed a body -> forall h, updated a h (fst (g body h)).

Lemma for_each_ext {X} (b1 b2 : heap -> X -> outcome) : (forall h x, b1 h x = b2 h x) ->
  forall l h, for_each l b1 h = for_each l b2 h.
Proof.
  intros H. induction l as [|x l IH]; intros h; cbn [for_each]; [reflexivity|]. rewrite H.
  destruct (b2 h x) as [h' [?|?]]; [apply IH|reflexivity].
Qed.

Lemma for_each_app {X} (body : heap -> X -> outcome) l1 : forall l2 h,
  for_each (l1 ++ l2) body h =
  match for_each l1 body h with (h', Ok _) => for_each l2 body h' | (h', Raise e) => (h', Raise e) end.
Proof.
  induction l1 as [|x l1 IH]; intros l2 h; cbn [for_each app]; [reflexivity|].
  destruct (body h x) as [h' [?|?]]; [apply IH|reflexivity].
Qed.

Lemma for_each_frame {X} a (body : heap -> X -> outcome) : framed a body ->
  forall l h, updated a h (fst (for_each l body h)).
Proof.
  intros Hb. induction l as [|x l IH]; intros h; cbn [for_each]; [apply updated_refl|].
  pose proof (Hb h x) as Hu. destruct (body h x) as [h' [?|?]]; cbn [fst] in Hu; [|exact Hu].
  eapply updated_trans; [exact Hu|apply IH].
Qed.

Lemma eval_frame {A} a h (m : res A) k : (forall x, updated a h (fst (k x))) -> updated a h (fst (eval h m k)).
Proof. intros H. destruct m; cbn [eval]; [apply H|apply updated_refl]. Qed.

Lemma strided_slice_gen_frame sh st off : gframe (strided_slice_gen sh st off).
Proof.
  intros a body Hb h. apply for_each_frame. intros h0 x. apply eval_frame. intros p. apply Hb.
Qed.

Lemma sparse_gen_frame s : gframe (sparse_gen s).
Proof.
  intros a body Hb h. destruct s; cbn [sparse_gen]; try apply updated_refl.
  - apply eval_frame. intros n. apply for_each_frame. intros h0 x. apply eval_frame. intros p. apply Hb.
  - apply eval_frame. intros n. apply for_each_frame. intros h0 x. apply eval_frame. intros p. apply Hb.
  - apply eval_frame. intros n. apply for_each_frame. intros h0 x. apply eval_frame. intros l.
    apply for_each_frame. intros h1 y. apply eval_frame. intros p. apply Hb.
Qed.

Lemma dm_gen_frame sh rd rsh rs ro : gframe (dm_gen sh rd rsh rs ro).
Proof.
  intros a body Hb h. apply for_each_frame. intros h0 x. apply eval_frame. intros p. apply Hb.
Qed.

Lemma slice_gen_frame {P} sh0 (g : generator (list Z * P)) sh st off : gframe g -> gframe (slice_gen sh0 g sh st off).
Proof.
  intros Hg a body Hb h. apply eval_frame. intros sd. apply Hg. intros h0 x. apply eval_frame.
  intros [six|]; [apply Hb|apply updated_refl].
Qed.

Lemma put_frame {P} a (write : heap -> P -> pyval -> outcome) value :
  (forall h p v, updated a h (fst (write h p v))) -> framed a (put write value).
Proof. intros Hw h x. apply eval_frame. intros v. apply Hw. Qed.

(** Assignment changes nothing but the data list of its target. *)
Lemma setitem_frame : forall s h ix value, updated (data_addr s) h (fst (setitem h s ix value)).
Proof.
  induction s as [b|t|sh ind d|sh fi d|sh cr co d|sh ch a b c d|sh rd rsh rs ro d IH];
    intros h ix value; cbn [setitem data_addr].
  - unfold buffer_setitem. destruct (buf_complete_index ix) as [[]|]; try apply updated_refl.
    destruct value; [apply buf_write_frame|apply updated_refl].
  - apply eval_frame. intros [[sh st] off]. apply strided_slice_gen_frame, put_frame, buf_write_frame.
  - destruct (bind _ _) as [[[[sh' st] off] d']|] eqn:E; cbn [eval]; [|apply updated_refl].
    assert (d' = d) as ->.
    { destruct (normalize_index _ _) as [nix|]; cbn [bind] in E; [|discriminate].
      destruct (index_strided _ _ _ _) as [[[? ?] ?]|]; cbn [bind data_buffer] in E; [congruence|discriminate]. }
    apply slice_gen_frame; [apply sparse_gen_frame|]. apply put_frame, buf_write_frame.
  - destruct (bind _ _) as [[[[sh' st] off] d']|] eqn:E; cbn [eval]; [|apply updated_refl].
    assert (d' = d) as ->.
    { destruct (normalize_index _ _) as [nix|]; cbn [bind] in E; [|discriminate].
      destruct (index_strided _ _ _ _) as [[[? ?] ?]|]; cbn [bind data_buffer] in E; [congruence|discriminate]. }
    apply slice_gen_frame; [apply sparse_gen_frame|]. apply put_frame, buf_write_frame.
  - destruct (bind _ _) as [[[[sh' st] off] d']|] eqn:E; cbn [eval]; [|apply updated_refl].
    assert (d' = d) as ->.
    { destruct (normalize_index _ _) as [nix|]; cbn [bind] in E; [|discriminate].
      destruct (index_strided _ _ _ _) as [[[? ?] ?]|]; cbn [bind data_buffer] in E; [congruence|discriminate]. }
    apply slice_gen_frame; [apply sparse_gen_frame|]. apply put_frame, buf_write_frame.
  - destruct (bind _ _) as [[[[sh' st] off] d']|] eqn:E; cbn [eval]; [|apply updated_refl].
    assert (d' = d) as ->.
    { destruct (normalize_index _ _) as [nix|]; cbn [bind] in E; [|discriminate].
      destruct (index_strided _ _ _ _) as [[[? ?] ?]|]; cbn [bind data_buffer] in E; [congruence|discriminate]. }
    apply slice_gen_frame; [apply sparse_gen_frame|]. apply put_frame, buf_write_frame.
  - apply eval_frame. intros [[sh' st] off].
    apply slice_gen_frame; [apply dm_gen_frame|]. apply put_frame. intros h0 p v. apply IH.
Qed.

(** ** Enumerating first and writing afterwards *)

(** The loop over a list of items computed beforehand. *)
Fixpoint write_loop {P} (write : heap -> P -> pyval -> outcome) (value : source)
    (l : list (list Z * P)) (h : heap) : outcome :=
  match l with
  | [] => (h, Ok tt)
  | (vi, p) :: r =>
      match get_value h value vi with
      | Raise e => (h, Raise e)
      | Ok x =>
          match write h p x with
          | (h', Ok _) => write_loop write value r h'
          | (h', Raise e) => (h', Raise e)
          end
      end
  end.

Lemma for_each_put {P} (write : heap -> P -> pyval -> outcome) value : forall l h,
  for_each l (put write value) h = write_loop write value l h.
Proof.
  induction l as [|[vi p] l IH]; intros h; cbn [for_each write_loop]; [reflexivity|].
  unfold put at 1. cbn [fst snd]. destruct (get_value h value vi) as [x|]; cbn [eval]; [|reflexivity].
  destruct (write h p x) as [h' [?|?]]; [apply IH|reflexivity].
Qed.

(** [g] yields the items [l] however the loop body writes to the list at [a]. *)
Definition yields {X} (a : nat) (h : heap) (g : generator X) (l : list X) : Prop :=
  forall body, framed a body -> forall h', updated a h h' -> g body h' = for_each l body h'.

Lemma for_each_mapM {X Y} a h (m : heap -> X -> res Y) : forall l ys,
  (forall h' x, updated a h h' -> m h' x = m h x) -> mapM (m h) l = Ok ys ->
  yields a h (fun body => for_each l (fun h x => eval h (m h x) (body h))) ys.
Proof.
  intros l ys Hm. revert ys. induction l as [|x l IH]; intros ys E body Hb h' Hu; cbn [mapM] in E.
  - injection E as <-. reflexivity.
  - destruct (m h x) as [y|] eqn:Ex; cbn [bind] in E; [|discriminate].
    destruct (mapM (m h) l) as [ys'|] eqn:El; cbn [bind] in E; [|discriminate]. injection E as <-.
    cbn [for_each]. rewrite (Hm h' x Hu), Ex. cbn [eval].
    pose proof (Hb h' y) as Hu'. destruct (body h' y) as [h1 [?|?]]; [|reflexivity]. cbn [fst] in Hu'.
    apply (IH ys' eq_refl body Hb h1). eapply updated_trans; eassumption.
Qed.

Lemma eval_bind {A B} h (m : res A) (f : A -> B) k :
  eval h m (fun x => k (f x)) = eval h (x <- m ;; Ok (f x)) k.
Proof. destruct m; reflexivity. Qed.

Lemma yields_ext {X} a h (g g' : generator X) l : (forall body h, g' body h = g body h) ->
  yields a h g l -> yields a h g' l.
Proof. intros E H body Hb h' Hu. rewrite E. now apply H. Qed.

Lemma strided_slice_gen_yields a h sh st off L : strided_slice_iad sh st off = Ok L ->
  yields a h (strided_slice_gen sh st off) L.
Proof.
  intros E. eapply yields_ext; [|eapply (for_each_mapM a h (fun _ ix => p <- get_position ix sh st ;; Ok (ix, off + p)))].
  - intros body h0. unfold strided_slice_gen. apply for_each_ext. intros h1 x.
    apply (eval_bind h1 _ (fun p => (x, off + p)) (body h1)).
  - reflexivity.
  - exact E.
Qed.

Lemma dm_gen_yields a h sh rd rsh rs ro L : dm_iad sh rd rsh rs ro = Ok L ->
  yields a h (dm_gen sh rd rsh rs ro) L.
Proof.
  intros E. eapply yields_ext; [|eapply (for_each_mapM a h (fun _ ix => r <- reduce_index rsh rd rs ro ix ;; Ok (ix, r)))].
  - intros body h0. unfold dm_gen. apply for_each_ext. intros h1 x.
    apply (eval_bind h1 _ (fun r => (x, r)) (body h1)).
  - reflexivity.
  - exact E.
Qed.

Lemma cell_updated a h h' b : updated a h h' -> b <> a -> cell h' b = cell h b.
Proof. intros Hu Hb. unfold cell. now rewrite (up_other _ _ _ Hu b Hb). Qed.

Lemma buf_int_updated a h h' b i : updated a h h' -> baddr b <> a -> buf_int h' b i = buf_int h b i.
Proof. intros Hu Hb. unfold buf_int, buf_get. now rewrite (cell_updated a h h'). Qed.

Lemma strided_int_updated a h h' t ix : updated a h h' -> baddr (sdata t) <> a ->
  strided_int h' t ix = strided_int h t ix.
Proof.
  intros Hu Hb. unfold strided_int, strided_getitem, buf_get, buf_slice, mk_buffer.
  destruct (normalize_index ix (sshape t)) as [nix|]; cbn [bind]; [|reflexivity].
  destruct (is_element_index nix (sshape t)).
  - destruct (get_position _ _ _); cbn [bind]; [|reflexivity]. now rewrite (cell_updated a h h').
  - destruct (index_strided _ _ _ _) as [[[? ?] ?]|]; cbn [bind]; [|reflexivity].
    now rewrite (cell_updated a h h').
Qed.

Lemma mapM_ext_in {A B} (f g : A -> res B) l : (forall x, In x l -> f x = g x) -> mapM f l = mapM g l.
Proof.
  induction l as [|x l IH]; intros H; cbn [mapM]; [reflexivity|].
  rewrite (H x (or_introl eq_refl)), IH; [reflexivity|]. intros y Hy. apply H. now right.
Qed.

Lemma csr_rows_yields a h cr co : baddr cr <> a -> baddr co <> a -> forall rows L,
  csr_iad_rows h cr co rows = Ok L ->
  yields a h (fun body => for_each rows (fun h r =>
        eval h (a <- buf_int h cr r ;; b <- buf_int h cr (r + 1) ;; Ok (zrange a b)) (fun l =>
          for_each l (fun h pos =>
            eval h (buf_int h co pos) (fun c => body h ([r; c], pos))) h))) L.
Proof.
  intros Ha Hb. induction rows as [|r rows IH]; intros L E body Hf h' Hu; cbn [csr_iad_rows for_each] in *.
  - injection E as <-. reflexivity.
  - rewrite !(buf_int_updated a h h' cr) by assumption.
    destruct (buf_int h cr r) as [x|]; cbn [bind] in *; [|discriminate].
    destruct (buf_int h cr (r + 1)) as [y|]; cbn [bind] in *; [|discriminate].
    destruct (mapM _ (zrange x y)) as [l|] eqn:El; cbn [bind] in E; [|discriminate].
    destruct (csr_iad_rows h cr co rows) as [rest|]; cbn [bind] in E; [|discriminate]. injection E as <-.
    cbn [eval].
    assert (Hy : for_each (zrange x y) (fun h pos => eval h (buf_int h co pos) (fun c => body h ([r; c], pos))) h'
                 = for_each l body h').
    { pose proof (for_each_mapM a h (fun h pos => c <- buf_int h co pos ;; Ok ([r; c], pos)) (zrange x y) l) as M.
      rewrite <- (M ltac:(intros h1 z Hu1; cbv beta; now rewrite (buf_int_updated a h h1 co z Hu1 Hb)) El body Hf h' Hu).
      apply for_each_ext. intros h1 z. apply (eval_bind h1 _ (fun c => ([r; c], z)) (body h1)). }
    rewrite Hy, for_each_app. pose proof (for_each_frame a body Hf l h') as Hu'.
    destruct (for_each l body h') as [h1 [?|?]]; [|reflexivity]. cbn [fst] in Hu'.
    apply (IH rest eq_refl body Hf h1). eapply updated_trans; eassumption.
Qed.

Lemma sparse_gen_yields a h s L : ~ In a (index_addrs s) -> sparse_iad h s = Ok L -> yields a h (sparse_gen s) L.
Proof.
  intros Ha E. destruct s; cbn [sparse_iad sparse_gen index_addrs] in *; try discriminate.
  - unfold coo_iad in E. intros body Hb h' Hu. unfold coo_gen.
    destruct (pyget (sshape indices) 1) as [n|]; cbn [bind eval] in *; [|discriminate].
    destruct (pyget (sshape indices) 0) as [rows|]; cbn [bind] in *; [|discriminate].
    pose proof (for_each_mapM a h (fun h pos =>
          ix <- mapM (fun j => strided_int h indices (int_tuple [j; pos])) (zseq rows) ;; Ok (ix, pos)) (zseq n) L) as M.
    rewrite <- M with (h' := h'); [|idtac|exact E|exact Hb|exact Hu].
    2:{ intros h1 x Hu1. cbv beta. f_equal. apply mapM_ext_in. intros j _.
        apply (strided_int_updated a h h1); [exact Hu1|]. intros Eq. apply Ha. now left. }
    apply for_each_ext. intros h1 z. apply (eval_bind h1 _ (fun ix => (ix, z)) (body h1)).
  - unfold flatcoo_iad in E. intros body Hb h' Hu. unfold flatcoo_gen.
    destruct (init_diophantine (make_strides shape) (Some shape)) as [sd|]; cbn [bind eval] in *; [|discriminate].
    pose proof (for_each_mapM a h (fun h pos =>
          f <- buf_int h findices pos ;; i <- solve_index_data f shape sd ;;
          match i with Some ix => Ok (ix, pos) | None => Raise TypeError end) (zseq (bsize findices)) L) as M.
    rewrite <- M with (h' := h'); [|idtac|exact E|exact Hb|exact Hu].
    2:{ intros h1 x Hu1. cbv beta. f_equal. apply (buf_int_updated a h h1); [exact Hu1|]. intros Eq. apply Ha. now left. }
    apply for_each_ext. intros h1 z. destruct (buf_int h1 findices z) as [f|]; cbn [bind eval]; [|reflexivity].
    destruct (solve_index_data f shape sd) as [[ix|]|]; reflexivity.
  - unfold csr_iad in E. intros body Hb h' Hu. unfold csr_gen.
    destruct (pyget shape 0) as [n|]; cbn [bind eval] in *; [|discriminate].
    apply (csr_rows_yields a h crow col) with (rows := zseq n) (L := L); auto; intros Eq; apply Ha; rewrite <- Eq; cbn; auto.
Qed.

Lemma slice_gen_yields {P} a h sh0 (g : generator (list Z * P)) l sh st off L : yields a h g l ->
  slice_iad sh0 (Ok l) sh st off = Ok L -> yields a h (slice_gen sh0 g sh st off) L.
Proof.
  intros Hg E body Hb h' Hu. unfold slice_gen, slice_iad in *.
  destruct (init_diophantine st (Some sh)) as [sd|]; cbn [bind eval] in *; [|discriminate].
  rewrite Hg; [|intros h0 x; apply eval_frame; intros [six|]; [apply Hb|apply updated_refl]|exact Hu].
  clear Hg Hu. revert L E h'. induction l as [|[ix p] l IH]; intros L E h'; cbn [slice_iad_loop for_each] in *.
  - injection E as <-. reflexivity.
  - cbn [fst snd]. destruct (get_position ix sh0 (make_strides sh0)) as [sp|]; cbn [bind] in *; [|discriminate].
    destruct (solve_index_data (sp - off) sh sd) as [o|]; cbn [bind eval] in *; [|discriminate].
    destruct (slice_iad_loop sh0 (make_strides sh0) sh sd off l) as [rest|]; cbn [bind] in E; [|discriminate].
    destruct o as [six|]; injection E as <-; cbn [for_each].
    + destruct (body h' (six, p)) as [h1 [?|?]]; [|reflexivity]. apply (IH rest eq_refl).
    + apply (IH rest eq_refl).
Qed.

(** The three forms of setitem, for arrays whose index lists are not their data
    list. *)
Lemma strided_setitem_run h t ix value L :
  (nix <- normalize_index ix (sshape t) ;;
   '(sh, st, off) <- index_strided nix (sshape t) (sstrides t) 0 ;;
   strided_slice_iad sh st off) = Ok L ->
  setitem h (SStrided t) ix value = write_loop (buf_write (sdata t)) value L h.
Proof.
  intros E. cbn [setitem]. destruct (normalize_index ix (sshape t)) as [nix|]; cbn [bind] in *; [|discriminate].
  destruct (index_strided _ _ _ _) as [[[sh st] off]|]; cbn [bind eval] in *; [|discriminate].
  rewrite <- for_each_put.
  apply (strided_slice_gen_yields (baddr (sdata t)) h sh st off L E); [|apply updated_refl].
  apply put_frame, buf_write_frame.
Qed.

Lemma sparse_setitem_run h s ix value d L : is_sparse s -> ~ In (data_addr s) (index_addrs s) ->
  (nix <- normalize_index ix (shape_of s) ;;
   '(sh, st, off) <- index_strided nix (shape_of s) (strides_of s) 0 ;;
   d <- data_buffer s ;;
   l <- slice_iad (shape_of s) (sparse_iad h s) sh st off ;; Ok (d, l)) = Ok (d, L) ->
  setitem h s ix value = write_loop (buf_write d) value L h.
Proof.
  intros Hs Ha E.
  assert (Hu : setitem h s ix value =
    eval h (nix <- normalize_index ix (shape_of s) ;;
            '(sh, st, off) <- index_strided nix (shape_of s) (strides_of s) 0 ;;
            d <- data_buffer s ;; Ok (sh, st, off, d))
      (fun '(sh, st, off, d) => slice_gen (shape_of s) (sparse_gen s) sh st off (put (buf_write d) value) h)).
  { destruct s; try contradiction; reflexivity. }
  rewrite Hu. destruct (normalize_index ix (shape_of s)) as [nix|]; cbn [bind] in *; [|discriminate].
  destruct (index_strided _ _ _ _) as [[[sh st] off]|]; cbn [bind] in *; [|discriminate].
  destruct (data_buffer s) as [d0|] eqn:Ed; cbn [bind eval] in *; [|discriminate].
  destruct (slice_iad _ _ _ _ _) as [L0|] eqn:EL; cbn [bind] in E; [|discriminate]. injection E as -> ->.
  assert (Hd : data_addr s = baddr d) by (destruct s; try contradiction; cbn in Ed |- *; congruence).
  destruct (sparse_iad h s) as [l|] eqn:El.
  2:{ unfold slice_iad in EL. destruct (init_diophantine _ _); discriminate. }
  rewrite <- for_each_put.
  apply (slice_gen_yields (baddr d) h (shape_of s) (sparse_gen s) l); [|exact EL| |apply updated_refl].
  - apply sparse_gen_yields; [now rewrite <- Hd|exact El].
  - apply put_frame, buf_write_frame.
Qed.

Lemma dm_setitem_run h sh rd rsh rs ro d ix value L :
  (nix <- normalize_index ix sh ;;
   '(sh', st, off) <- index_strided nix sh (make_strides sh) 0 ;;
   slice_iad sh (dm_iad sh rd rsh rs ro) sh' st off) = Ok L ->
  setitem h (SDM sh rd rsh rs ro d) ix value =
  write_loop (fun h r v => setitem h d (int_tuple r) (SrcSeq v)) value L h.
Proof.
  intros E. cbn [setitem]. destruct (normalize_index ix sh) as [nix|]; cbn [bind] in *; [|discriminate].
  destruct (index_strided _ _ _ _) as [[[sh' st] off]|]; cbn [bind eval] in *; [|discriminate].
  destruct (dm_iad sh rd rsh rs ro) as [l|] eqn:El.
  2:{ unfold slice_iad in E. destruct (init_diophantine _ _); discriminate. }
  rewrite <- for_each_put.
  apply (slice_gen_yields (data_addr d) h sh (dm_gen sh rd rsh rs ro) l); [|exact E| |apply updated_refl].
  - now apply dm_gen_yields.
  - apply put_frame. intros h0 p v. apply setitem_frame.
Qed.

(** A sequence of assignments; exceptions leave the heap reached. *)
Fixpoint assigns (h : heap) (ops : list (storage * pyindex * source)) : heap :=
  match ops with
  | [] => h
  | (s, ix, v) :: r => assigns (fst (setitem h s ix v)) r
  end.

Lemma assigns_other ops : forall h b, Forall (fun o => data_addr (fst (fst o)) <> b) ops ->
  nth_error (assigns h ops) b = nth_error h b.
Proof.
  induction ops as [|[[s ix] v] ops IH]; intros h b H; cbn [assigns]; [reflexivity|].
  inversion H as [|? ? Hs H']; subst. rewrite IH by exact H'.
  apply (up_other _ _ _ (setitem_frame s h ix v)). cbn in Hs. congruence.
Qed.

(** Elements of a storage none of whose lists is written are unchanged. *)
Lemma assigns_repr ops h s f : repr h s f ->
  Forall (fun o => ~ In (data_addr (fst (fst o))) (addrs s)) ops -> repr (assigns h ops) s f.
Proof.
  intros Hr H. eapply repr_frame; [|exact Hr]. intros a Ha. apply assigns_other.
  eapply Forall_impl; [|exact H]. intros o Ho E. subst a. exact (Ho Ha).
Qed.

(** * Writes through a buffer *)
Lemma write_loop_buf b value val : forall L h l,
  nth_error h (baddr b) = Some l ->
  (forall l'', length l'' = length l ->
     (forall q, 0 <= q -> (forall vi p, In (vi, p) L -> q <> boff b + p) ->
        nth (Z.to_nat q) l'' VNone = nth (Z.to_nat q) l VNone) ->
     forall vi p, In (vi, p) L -> get_value (set_nth (baddr b) l'' h) value vi = Ok (val vi)) ->
  NoDup (map snd L) ->
  Forall (fun e => 0 <= boff b + snd e < zlen l) L ->
  exists l', write_loop (buf_write b) value L h = (set_nth (baddr b) l' h, Ok tt)
    /\ length l' = length l
    /\ (forall vi p, In (vi, p) L -> nth (Z.to_nat (boff b + p)) l' VNone = val vi)
    /\ (forall q, 0 <= q -> (forall vi p, In (vi, p) L -> q <> boff b + p) ->
          nth (Z.to_nat q) l' VNone = nth (Z.to_nat q) l VNone).
Proof.
  assert (Hid : forall h a (l : list pyval), nth_error h a = Some l -> set_nth a l h = h).
  { induction h as [|x h IH]; intros [|a] l H; cbn in *; try discriminate; [now injection H as ->|].
    now rewrite IH. }
  assert (Hss : forall a (l1 l2 : list pyval) h, set_nth a l2 (set_nth a l1 h) = set_nth a l2 h).
  { intros a l1 l2. induction a as [|a IH]; intros [|x h]; cbn; try reflexivity. now rewrite IH. }
  induction L as [|[vi p] L IH]; intros h l Hl Hread Hnd Hrng; cbn [write_loop].
  - exists l. rewrite Hid by exact Hl. repeat split; auto. intros vi p [].
  - inversion Hnd as [|? ? Hni Hnd']; subst. inversion Hrng as [|? ? Hp Hrng']; subst. cbn [snd] in Hp.
    assert (R0 : get_value h value vi = Ok (val vi)).
    { rewrite <- (Hid h _ l Hl). apply (Hread l eq_refl) with (p := p); [auto|now left]. }
    rewrite R0. unfold buf_write at 1, buf_set. rewrite (cell_ok _ _ _ Hl). cbn [bind].
    rewrite pyset_ok by exact Hp. cbn [bind].
    set (l1 := set_nth (Z.to_nat (boff b + p)) (val vi) l).
    set (h1 := set_nth (baddr b) l1 h).
    assert (Hl1 : length l1 = length l) by apply set_nth_length.
    assert (Hc1 : nth_error h1 (baddr b) = Some l1).
    { apply set_nth_error_same. apply nth_error_Some. congruence. }
    assert (Hn1 : forall q, 0 <= q -> q <> boff b + p -> nth (Z.to_nat q) l1 VNone = nth (Z.to_nat q) l VNone).
    { intros q Hq Hne. unfold l1. rewrite set_nth_nth by (unfold zlen in Hp; lia).
      replace (Nat.eqb _ _) with false; [reflexivity|]. symmetry. apply Nat.eqb_neq. lia. }
    destruct (IH h1 l1 Hc1) as (l' & E1 & E2 & E3 & E4).
    + intros l'' Hlen Hkeep v2 p2 Hin. unfold h1. rewrite Hss.
      apply Hread with (p := p2); [congruence| |now right]. intros q Hq Hout.
      rewrite Hkeep; [apply Hn1; [exact Hq|apply (Hout vi); now left]|exact Hq|].
      intros v3 p3 H3. apply (Hout v3). now right.
    + exact Hnd'.
    + eapply Forall_impl; [|exact Hrng']. intros e He. unfold zlen in *. now rewrite Hl1.
    + exists l'. rewrite E1. unfold h1. rewrite Hss. split; [reflexivity|]. split; [congruence|]. split.
      * intros v2 p2 [E|Hin]; [|now apply E3]. injection E as <- <-.
        rewrite E4; [|lia|].
        -- unfold l1. rewrite set_nth_nth by (unfold zlen in Hp; lia). now rewrite Nat.eqb_refl.
        -- intros v3 p3 H3 E. apply Hni. assert (p3 = p) as <- by lia. now apply (in_map snd) in H3.
      * intros q Hq Hout. rewrite E4; [|exact Hq|].
        -- apply Hn1; [exact Hq|apply (Hout vi); now left].
        -- intros v3 p3 H3. apply (Hout v3). now right.
Qed.

(** Whatever happens, only the positions of the list are written. *)
Lemma write_loop_buf_only b value : forall L h l h' r,
  nth_error h (baddr b) = Some l ->
  Forall (fun e => 0 <= boff b + snd e < zlen l) L ->
  write_loop (buf_write b) value L h = (h', r) ->
  exists l', h' = set_nth (baddr b) l' h /\ length l' = length l
    /\ (forall q, 0 <= q -> (forall vi p, In (vi, p) L -> q <> boff b + p) ->
          nth (Z.to_nat q) l' VNone = nth (Z.to_nat q) l VNone).
Proof.
  assert (Hid : forall h a (l : list pyval), nth_error h a = Some l -> set_nth a l h = h).
  { induction h as [|x h IH]; intros [|a] l H; cbn in *; try discriminate; [now injection H as ->|].
    now rewrite IH. }
  assert (Hss : forall a (l1 l2 : list pyval) h, set_nth a l2 (set_nth a l1 h) = set_nth a l2 h).
  { intros a l1 l2. induction a as [|a IH]; intros [|x h]; cbn; try reflexivity. now rewrite IH. }
  induction L as [|[vi p] L IH]; intros h l h' r Hl Hrng; cbn [write_loop].
  - intros E. injection E as <- <-. exists l. now rewrite Hid.
  - inversion Hrng as [|? ? Hp Hrng']; subst. cbn [snd] in Hp.
    destruct (get_value h value vi) as [x|e].
    2:{ intros E. injection E as <- <-. exists l. now rewrite Hid. }
    unfold buf_write at 1, buf_set. rewrite (cell_ok _ _ _ Hl). cbn [bind]. rewrite pyset_ok by exact Hp. cbn [bind].
    set (l1 := set_nth (Z.to_nat (boff b + p)) x l). intros E.
    assert (Hl1 : length l1 = length l) by apply set_nth_length.
    destruct (IH (set_nth (baddr b) l1 h) l1 h' r) as (l' & E1 & E2 & E3).
    + apply set_nth_error_same. apply nth_error_Some. congruence.
    + eapply Forall_impl; [|exact Hrng']. intros e He. unfold zlen in *. now rewrite Hl1.
    + exact E.
    + exists l'. rewrite Hss in E1. split; [exact E1|]. split; [congruence|].
      intros q Hq Hout. rewrite E3; [|exact Hq|].
      * unfold l1. rewrite set_nth_nth by (unfold zlen in Hp; lia).
        replace (Nat.eqb _ _) with false; [reflexivity|]. symmetry. apply Nat.eqb_neq.
        specialize (Hout vi p (or_introl eq_refl)). lia.
      * intros v3 p3 H3. apply (Hout v3). now right.
Qed.

(** * Strided *)

(** The positions the assignment [t[ix] = ...] writes. *)
Lemma strided_positions t l ix : strided_ok t l -> positive (sshape t) -> ok_index ix (sshape t) ->
  exists L, (nix <- normalize_index ix (sshape t) ;;
             '(sh, st, off) <- index_strided nix (sshape t) (sstrides t) 0 ;;
             strided_slice_iad sh st off) = Ok L
    /\ (forall j p, In (j, p) L <->
          in_box j (slice_shape ix (sshape t))
          /\ boff (sdata t) + p = spos t (source_index ix (sshape t) j))
    /\ NoDup (map snd L)
    /\ Forall (fun e => 0 <= boff (sdata t) + snd e < zlen l) L
    /\ map fst L = cart (slice_shape ix (sshape t)).
Proof.
  intros Ht Hp Hok. set (sh := sshape t) in *. set (st := sstrides t) in *. pose proof Hok as [Hitems _].
  set (nix := norm_items (index_items ix) sh).
  assert (Hn : normal_index nix sh) by now apply norm_items_normal.
  assert (Es : n_shape nix sh = slice_shape ix sh) by now apply norm_items_shape.
  assert (Hst : length st = length sh) by apply (so_strides _ _ Ht).
  rewrite normalize_index_ok by assumption. fold nix. cbn [bind].
  rewrite index_strided_ok by assumption. cbn [bind]. rewrite Z.add_0_l.
  unfold strided_slice_iad.
  rewrite mapM_ok with (g := fun j => (j, n_offset nix sh st + zdot j (n_strides nix st))).
  2:{ intros j Hj. apply In_cart in Hj. rewrite get_position_ok; [reflexivity|now apply in_box_len|].
      now apply n_strides_length. }
  assert (Hj : forall j, in_box j (slice_shape ix sh) ->
     in_box (source_index ix sh j) sh
     /\ boff (sdata t) + (n_offset nix sh st + zdot j (n_strides nix st)) = spos t (source_index ix sh j)).
  { intros j Hj. assert (Eq : source_index ix sh j = n_source nix sh j).
    { symmetry. now apply norm_items_source. }
    rewrite Eq. rewrite <- Es in Hj. split; [now apply n_source_in_box|].
    unfold spos. fold st. rewrite <- (n_offset_dot nix sh st j) by assumption. lia. }
  eexists. split; [reflexivity|]. rewrite Es. split; [|split; [|split]].
  - intros j p. rewrite in_map_iff. split.
    + intros (k & Ek & Hk). injection Ek as -> <-. apply In_cart in Hk. split; [exact Hk|]. now apply Hj.
    + intros [Hb Hpp]. exists j. split; [|now apply In_cart]. f_equal. destruct (Hj j Hb) as [_ E]. lia.
  - rewrite map_map. cbn [snd].
    assert (G : forall l', Forall (fun j => in_box j (slice_shape ix sh)) l' -> NoDup l' ->
       NoDup (map (fun j => n_offset nix sh st + zdot j (n_strides nix st)) l')).
    { induction 1 as [|j l' H1 H2 IH]; intros Hnd; cbn [map]; [constructor|].
      inversion Hnd as [|? ? N1 N2]; subst. constructor; [|now apply IH].
      intros Hin. apply in_map_iff in Hin. destruct Hin as (k & Ek & Hk). apply N1.
      rewrite Forall_forall in H2. destruct (Hj j H1) as [B1 P1]. destruct (Hj k (H2 k Hk)) as [B2 P2].
      assert (Eq : source_index ix sh k = source_index ix sh j).
      { apply (so_inj _ _ Ht); auto. lia. }
      unfold source_index in Eq. rewrite <- !norm_items_source in Eq by (auto; now apply H2). fold nix in Eq.
      assert (k = j) as <-; [|exact Hk].
      apply (n_source_inj nix sh); auto; rewrite Es; auto. }
    apply G.
    + apply Forall_forall. intros j Hin. now apply In_cart.
    + apply sorted_NoDup, cart_sorted.
  - apply Forall_forall. intros e Hin. apply in_map_iff in Hin. destruct Hin as (j & <- & Hin).
    apply In_cart in Hin. cbn [snd]. destruct (Hj j Hin) as [B P]. rewrite P.
    pose proof (so_pos _ _ Ht _ B). pose proof (so_end _ _ Ht). lia.
  - rewrite map_map. cbn [fst]. apply map_id.
Qed.

Lemma strided_write h t l ix value val : nth_error h (baddr (sdata t)) = Some l -> strided_ok t l ->
  positive (sshape t) -> ok_index ix (sshape t) ->
  (forall l'', length l'' = length l ->
     (forall q, 0 <= q -> (forall j, in_box j (slice_shape ix (sshape t)) ->
                             q <> spos t (source_index ix (sshape t) j)) ->
        nth (Z.to_nat q) l'' VNone = nth (Z.to_nat q) l VNone) ->
     forall j, in_box j (slice_shape ix (sshape t)) ->
       get_value (set_nth (baddr (sdata t)) l'' h) value j = Ok (val j)) ->
  exists l', setitem h (SStrided t) ix value = (set_nth (baddr (sdata t)) l' h, Ok tt)
    /\ length l' = length l
    /\ (forall j, in_box j (slice_shape ix (sshape t)) ->
          nth (Z.to_nat (spos t (source_index ix (sshape t) j))) l' VNone = val j)
    /\ (forall q, 0 <= q -> (forall j, in_box j (slice_shape ix (sshape t)) ->
                               q <> spos t (source_index ix (sshape t) j)) ->
          nth (Z.to_nat q) l' VNone = nth (Z.to_nat q) l VNone).
Proof.
  intros Hl Ht Hp Hok Hread.
  destruct (strided_positions t l ix Ht Hp Hok) as (L & EL & HL & Hnd & Hrng & _).
  rewrite (strided_setitem_run h t ix value L EL).
  assert (Hout : forall q, (forall vi p, In (vi, p) L -> q <> boff (sdata t) + p) <->
     (forall j, in_box j (slice_shape ix (sshape t)) -> q <> spos t (source_index ix (sshape t) j))).
  { intros q. split.
    - intros H j Hj E. apply (H j (q - boff (sdata t))); [|lia]. apply HL. split; [exact Hj|lia].
    - intros H j p Hin E. apply HL in Hin. destruct Hin as [Hj Ep]. apply (H j Hj). lia. }
  destruct (write_loop_buf (sdata t) value val L h l Hl) as (l' & E1 & E2 & E3 & E4).
  - intros l'' Hlen Hk j p Hin. apply Hread; [exact Hlen| |].
    + intros q Hq Ho. apply Hk; [exact Hq|]. now apply Hout.
    + apply HL in Hin. apply Hin.
  - exact Hnd.
  - exact Hrng.
  - exists l'. split; [exact E1|]. split; [exact E2|]. split.
    + intros j Hj. specialize (E3 j (spos t (source_index ix (sshape t) j) - boff (sdata t))).
      replace (boff (sdata t) + (spos t (source_index ix (sshape t) j) - boff (sdata t)))
        with (spos t (source_index ix (sshape t) j)) in E3 by lia.
      apply E3. apply HL. split; [exact Hj|lia].
    + intros q Hq Ho. apply E4; [exact Hq|]. now apply Hout.
Qed.

(** After a failed assignment too, only selected elements can differ. *)
Lemma strided_write_only h t l ix value h' r : nth_error h (baddr (sdata t)) = Some l -> strided_ok t l ->
  positive (sshape t) -> ok_index ix (sshape t) -> setitem h (SStrided t) ix value = (h', r) ->
  exists l', h' = set_nth (baddr (sdata t)) l' h /\ length l' = length l
    /\ (forall q, 0 <= q -> (forall j, in_box j (slice_shape ix (sshape t)) ->
                               q <> spos t (source_index ix (sshape t) j)) ->
          nth (Z.to_nat q) l' VNone = nth (Z.to_nat q) l VNone).
Proof.
  intros Hl Ht Hp Hok E.
  destruct (strided_positions t l ix Ht Hp Hok) as (L & EL & HL & Hnd & Hrng & _).
  rewrite (strided_setitem_run h t ix value L EL) in E.
  destruct (write_loop_buf_only (sdata t) value L h l h' r Hl Hrng E) as (l' & E1 & E2 & E3).
  exists l'. split; [exact E1|]. split; [exact E2|]. intros q Hq Ho. apply E3; [exact Hq|].
  intros j p Hin Ep. apply HL in Hin. destruct Hin as [Hj Es]. apply (Ho j Hj). lia.
Qed.

Lemma strided_ok_length t l l' : length l' = length l -> strided_ok t l -> strided_ok t l'.
Proof.
  intros E [H1 H2 H3 H4 H5 H6 H7]. constructor; auto. unfold zlen in *. now rewrite E.
Qed.

Lemma strided_relist h t l l' : nth_error h (baddr (sdata t)) = Some l -> strided_ok t l ->
  length l' = length l ->
  repr (set_nth (baddr (sdata t)) l' h) (SStrided t) (fun i => nth (Z.to_nat (spos t i)) l' VNone).
Proof.
  intros Hl Ht E. cbn [repr]. exists l'. split; [|split; [now apply (strided_ok_length t l)|reflexivity]].
  apply set_nth_error_same. apply nth_error_Some. congruence.
Qed.

(** * Values *)

(** Element [j] of an assigned value. *)
Definition value_at (h : heap) (value : source) (j : list Z) (x : pyval) : Prop :=
  match value with
  | SrcSeq v => nested_at v j = Some x
  | SrcSto s => in_box j (shape_of s) /\ j <> [] /\ get_elem h s j = Ok x
  end.

(** The value shares no list with cell [a]. *)
Definition separate (h : heap) (value : source) (a : nat) : Prop :=
  match value with
  | SrcSeq _ => True
  | SrcSto s => valid h s /\ ~ In a (addrs s)
  end.

Lemma nested_at_get v : forall j x, nested_at v j = Some x -> seq_value v j = Ok x.
Proof.
  intros j x H. unfold seq_value.
  assert (G : forall j v, nested_at v j = Some x -> seq_get v j = Ok x).
  { clear. induction j as [|i j IH]; intros v H; cbn [nested_at seq_get] in *; [now injection H as ->|].
    destruct v as [| | |l]; try discriminate. destruct (i <? 0) eqn:Ei; [discriminate|].
    destruct (nth_error l (Z.to_nat i)) as [w|] eqn:Ew; [|discriminate].
    unfold pyget. rewrite Ei, Ei, Ew. cbn [bind]. now apply IH. }
  destruct j as [|i j]; [cbn in H; now injection H as ->|].
  destruct v as [| | |l]; try discriminate. now apply G.
Qed.

Lemma value_reads h a value j x h'' : separate h value a -> value_at h value j x ->
  (forall b, b <> a -> nth_error h'' b = nth_error h b) -> get_value h'' value j = Ok x.
Proof.
  intros Hs Hv Hh. destruct value as [v|s]; cbn [value_at get_value separate] in *.
  - now apply nested_at_get.
  - destruct Hs as [[f Hr] Hni]. destruct Hv as (Hj & Hne & Hx).
    assert (Hr' : repr h'' s f).
    { eapply repr_frame; [|exact Hr]. intros b Hb. apply Hh. intros ->. contradiction. }
    rewrite (repr_get h s f j Hr Hj) in Hx. rewrite <- Hx. destruct j; [congruence|]. now apply repr_get.
Qed.

(** * Sparse classes *)
Definition revalue (o : Z) (l : list pyval) (E : list (list Z * pyval)) : list (list Z * pyval) :=
  map (fun p => (fst p, nth (Z.to_nat (o + snd p)) l VNone)) (numbered E).

Lemma revalue_fst o l E : map fst (revalue o l E) = map fst E.
Proof. unfold revalue. rewrite map_map. cbn [fst]. apply numbered_fst. Qed.

Lemma revalue_length o l E : length (revalue o l E) = length E.
Proof. rewrite <- (map_length fst (revalue o l E)), revalue_fst. apply map_length. Qed.

Lemma revalue_column k o l E : column k (revalue o l E) = column k E.
Proof.
  unfold column. rewrite <- (map_map fst (fun i => nth k i 0) (revalue o l E)), revalue_fst.
  now rewrite map_map.
Qed.

Lemma revalue_ordered sh o l E : ordered sh E -> ordered sh (revalue o l E).
Proof.
  intros [H1 H2]. split; [|now rewrite revalue_fst].
  apply Forall_forall. intros e He. assert (Hin : In (fst e) (map fst E)).
  { rewrite <- (revalue_fst o l E). now apply in_map. }
  apply in_map_iff in Hin. destruct Hin as (e' & <- & He'). rewrite Forall_forall in H1. now apply H1.
Qed.

Lemma revalue_lookup sh o l E u i k : ordered sh E -> 0 <= k < zlen E ->
  i = fst (nth (Z.to_nat k) E ([], VNone)) -> lookup (revalue o l E) u i = nth (Z.to_nat (o + k)) l VNone.
Proof.
  intros Ho Hk ->. apply In_lookup.
  - rewrite revalue_fst. eapply ordered_NoDup; eassumption.
  - unfold revalue. apply in_map_iff. eexists (_, k). split; [reflexivity|]. now apply In_numbered.
Qed.

Lemma holds_other h a l' b vs : baddr b <> a -> holds h b vs -> holds (set_nth a l' h) b vs.
Proof. intros Hb. apply holds_frame. now apply set_nth_error_other. Qed.

Lemma nth_map_zseq_any {A} (f : Z -> A) n k d : (k < Z.to_nat n)%nat -> nth k (map f (zseq n)) d = f (Z.of_nat k).
Proof.
  intros H. rewrite (nth_indep _ d (f 0)) by (rewrite map_length, zseq_length_nat; exact H).
  rewrite map_nth. f_equal. unfold zseq. change 0 with (Z.of_nat 0).
  rewrite map_nth, seq_nth by exact H. reflexivity.
Qed.

Lemma holds_revalue h d E l l' : nth_error h (baddr d) = Some l -> holds h d (map snd E) ->
  length l' = length l ->
  holds (set_nth (baddr d) l' h) d (map snd (revalue (boff d) l' E)).
Proof.
  intros Hl (l0 & Hl0 & Ho & Hs & He & _) E'. rewrite Hl in Hl0. injection Hl0 as <-.
  assert (Hlen : length (map snd (revalue (boff d) l' E)) = length E) by now rewrite map_length, revalue_length.
  exists l'. split; [apply set_nth_error_same; apply nth_error_Some; congruence|]. split; [exact Ho|].
  unfold zlen in *. rewrite map_length in Hs. split; [now rewrite Hlen|]. split; [lia|].
  apply nth_ext with (d := VNone) (d' := VNone).
  - rewrite firstn_length, skipn_length, Hlen. lia.
  - intros k Hk. rewrite firstn_length in Hk. rewrite nth_firstn by lia. rewrite nth_skipn.
    rewrite Hlen in Hk. unfold revalue. rewrite map_map. unfold numbered. rewrite map_map. cbn [snd].
    unfold zlen. rewrite nth_map_zseq_any by lia. f_equal. lia.
Qed.

Lemma entries_relist h s E l l' : entries h s E -> nth_error h (data_addr s) = Some l ->
  length l' = length l ->
  exists d, data_buffer s = Ok d /\ entries (set_nth (data_addr s) l' h) s (revalue (boff d) l' E).
Proof.
  intros HE Hl Hlen. destruct (entries_data h s E HE) as (d & Ed & Hh & _ & Ha).
  exists d. split; [exact Ed|].
  assert (Hd : holds (set_nth (data_addr s) l' h) d (map snd (revalue (boff d) l' E))).
  { rewrite <- Ha in *. now apply (holds_revalue h d E l). }
  pose proof (revalue_length (boff d) l' E) as Hz.
  destruct s; try contradiction; cbn [data_buffer] in Ed; injection Ed as <-; cbn [entries data_addr] in *.
  - destruct HE as (H1 & H2 & H3 & H4 & H5 & H6 & H7 & H8 & H9).
    split; [exact H1|]. split; [exact H2|]. split; [now apply revalue_ordered|]. split; [exact Hd|].
    unfold zlen in *. rewrite Hz. split; [exact H5|]. split; [exact H6|]. split; [|now split].
    rewrite (map_ext (fun k => column k (revalue (boff data) l' E)) (fun k => column k E))
      by (intros; apply revalue_column). now apply holds_other.
  - destruct HE as (H1 & H2 & H3 & H4 & H5 & H6 & H7).
    split; [exact H1|]. split; [exact H2|]. split; [now apply revalue_ordered|]. split; [exact Hd|].
    split; [|now split].
    rewrite <- (map_map fst (fun i => VInt (zdot i (c_strides shape)))), revalue_fst, map_map. now apply holds_other.
  - destruct HE as (H1 & H2 & H3 & H4 & H5 & H6 & H7 & H8 & H9).
    split; [exact H1|]. split; [exact H2|]. split; [now apply revalue_ordered|]. split; [exact Hd|].
    rewrite !revalue_column. split; [now apply holds_other|]. split; [now apply holds_other|now repeat split].
Qed.

Lemma NoDup_map_snd {A} (L : list (list Z * A)) : NoDup (map fst L) ->
  (forall j j' p, In (j, p) L -> In (j', p) L -> j = j') -> NoDup (map snd L).
Proof.
  induction L as [|[j p] L IH]; intros Hnd Hinj; cbn [map]; [constructor|].
  cbn [map fst] in Hnd. inversion Hnd as [|? ? H1 H2]; subst. constructor.
  - cbn [snd]. intros Hin. apply in_map_iff in Hin. destruct Hin as ([j' p'] & Ep & Hin). cbn in Ep. subst p'.
    apply H1. rewrite (Hinj j j' p); [now apply (in_map fst) in Hin|now left|now right].
  - apply IH; [exact H2|]. intros j1 j2 q Ha Hb. apply (Hinj j1 j2 q); now right.
Qed.

(** The positions written by a slice assignment. *)
Lemma sparse_positions h s E ix : entries h s E -> positive (shape_of s) -> ok_index ix (shape_of s) ->
  slice_shape ix (shape_of s) <> [] ->
  exists L d, (nix <- normalize_index ix (shape_of s) ;;
             '(sh, st, off) <- index_strided nix (shape_of s) (strides_of s) 0 ;;
             d <- data_buffer s ;;
             l <- slice_iad (shape_of s) (sparse_iad h s) sh st off ;; Ok (d, l)) = Ok (d, L)
    /\ data_buffer s = Ok d
    /\ (forall j p, In (j, p) L <->
          in_box j (slice_shape ix (shape_of s)) /\ In (source_index ix (shape_of s) j, p) (numbered E))
    /\ NoDup (map snd L).
Proof.
  intros HE Hp Hok Hne. set (sh := shape_of s) in *. pose proof Hok as [Hitems _].
  set (nix := norm_items (index_items ix) sh).
  assert (Hn : normal_index nix sh) by now apply norm_items_normal.
  assert (Es : n_shape nix sh = slice_shape ix sh) by now apply norm_items_shape.
  destruct (entries_data h s E HE) as (d & Ed & Hh & _ & Ha).
  assert (Est : strides_of s = make_strides sh).
  { destruct s; try contradiction; reflexivity. }
  rewrite normalize_index_ok by assumption. fold nix. cbn [bind]. rewrite Est.
  rewrite index_strided_ok; [|assumption|assumption|apply make_strides_length]. cbn [bind].
  rewrite Ed. cbn [bind]. rewrite (sparse_iad_ok h s E HE Hp). rewrite Z.add_0_l.
  pose proof (entries_ordered h s E HE) as Ho. fold sh in Ho.
  destruct (slice_iad_ok sh (numbered E) nix Hp Hn ltac:(rewrite Es; exact Hne) (numbered_in_box sh E Ho))
    as (L & EL & HL & HN).
  { rewrite numbered_fst. eapply ordered_NoDup; eassumption. }
  exists L, d. rewrite EL. cbn [bind]. split; [reflexivity|]. split; [reflexivity|].
  assert (HL' : forall j p, In (j, p) L <->
          in_box j (slice_shape ix sh) /\ In (source_index ix sh j, p) (numbered E)).
  { intros j p. rewrite HL, Es. split; intros [Hj Hin]; (split; [exact Hj|]).
    - unfold source_index. rewrite <- norm_items_source by assumption. exact Hin.
    - unfold source_index in Hin. rewrite <- norm_items_source in Hin by assumption. exact Hin. }
  split; [exact HL'|].
  apply NoDup_map_snd; [exact HN|]. intros j j' p H1 H2. apply HL' in H1, H2.
  destruct H1 as [B1 I1]. destruct H2 as [B2 I2]. apply In_numbered in I1, I2.
  destruct I1 as [_ I1]. destruct I2 as [_ I2]. rewrite <- I2 in I1.
  unfold source_index in I1. rewrite <- !norm_items_source in I1 by assumption.
  apply (n_source_inj nix sh); auto; now rewrite Es.
Qed.

Lemma entries_separate h s E : entries h s E -> ~ In (data_addr s) (index_addrs s).
Proof.
  destruct s; cbn [entries data_addr index_addrs]; try contradiction; intros HE.
  - intros [H|[]]. tauto.
  - intros [H|[]]. tauto.
  - intros [H|[H|[]]]; tauto.
Qed.

Lemma entries_range h s E d l : entries h s E -> data_buffer s = Ok d -> nth_error h (baddr d) = Some l ->
  forall p, 0 <= p < zlen E -> 0 <= boff d + p < zlen l.
Proof.
  intros HE Ed Hl p Hp. pose proof (data_buffer_holds h s E d HE Ed) as (l0 & Hl0 & Ho & Hs & He & _).
  rewrite Hl in Hl0. injection Hl0 as <-. rewrite zlen_map in Hs. lia.
Qed.

Lemma stored_pos (E : list (list Z * pyval)) i : In i (map fst E) -> exists k, 0 <= k < zlen E /\ i = fst (nth (Z.to_nat k) E ([], VNone)).
Proof.
  intros Hin. apply in_map_iff in Hin. destruct Hin as (e & <- & He).
  apply (In_nth E e ([], VNone)) in He. destruct He as (k & Hk & <-). exists (Z.of_nat k).
  unfold zlen. rewrite Nat2Z.id. split; [lia|reflexivity].
Qed.

(** Lookups after the writes of positions [L] that correspond to the indices
    selected. *)
Lemma sparse_rewrite h s E d l l' u : entries h s E -> data_buffer s = Ok d -> nth_error h (baddr d) = Some l ->
  forall k, 0 <= k < zlen E ->
  nth (Z.to_nat (boff d + k)) l' VNone = nth (Z.to_nat (boff d + k)) l VNone ->
  lookup (revalue (boff d) l' E) u (fst (nth (Z.to_nat k) E ([], VNone)))
  = lookup E u (fst (nth (Z.to_nat k) E ([], VNone))).
Proof.
  intros HE Ed Hl k Hk Eq. pose proof (entries_ordered h s E HE) as Ho.
  rewrite (revalue_lookup (shape_of s) (boff d) l' E u _ k Ho Hk eq_refl), Eq.
  symmetry. apply In_lookup; [eapply ordered_NoDup; eassumption|].
  pose proof (data_buffer_holds h s E d HE Ed) as Hh.
  rewrite (holds_nth h d (map snd E) l k Hl Hh) by (rewrite zlen_map; exact Hk).
  rewrite nth_map_snd, <- surjective_pairing. apply nth_In. unfold zlen in Hk. lia.
Qed.

Lemma sparse_write h s E ix value val : entries h s E -> positive (shape_of s) -> ok_index ix (shape_of s) ->
  slice_shape ix (shape_of s) <> [] ->
  (forall l'', forall j, in_box j (slice_shape ix (shape_of s)) -> In (source_index ix (shape_of s) j) (map fst E) ->
       get_value (set_nth (data_addr s) l'' h) value j = Ok (val j)) ->
  exists l' E', setitem h s ix value = (set_nth (data_addr s) l' h, Ok tt)
    /\ entries (set_nth (data_addr s) l' h) s E' /\ map fst E' = map fst E
    /\ (forall u j, in_box j (slice_shape ix (shape_of s)) -> In (source_index ix (shape_of s) j) (map fst E) ->
          lookup E' u (source_index ix (shape_of s) j) = val j)
    /\ (forall u i, ~ hit ix (shape_of s) i -> lookup E' u i = lookup E u i)
    /\ (forall u i, ~ In i (map fst E) -> lookup E' u i = lookup E u i).
Proof.
  intros HE Hp Hok Hne Hread.
  destruct (sparse_positions h s E ix HE Hp Hok Hne) as (L & d & EL & Ed & HL & Hnd).
  rewrite (sparse_setitem_run h s ix value d L (entries_sparse h s E HE) (entries_separate h s E HE) EL).
  destruct (entries_data h s E HE) as (d0 & Ed0 & (l & Hl & _) & _ & Ha).
  rewrite Ed in Ed0. injection Ed0 as <-.
  assert (Hrng : Forall (fun e => 0 <= boff d + snd e < zlen l) L).
  { apply Forall_forall. intros [j p] Hin. apply HL in Hin. destruct Hin as [_ Hin].
    apply In_numbered in Hin. cbn [snd]. now apply (entries_range h s E d l HE Ed Hl). }
  destruct (write_loop_buf d value val L h l Hl) as (l' & E1 & E2 & E3 & E4).
  { intros l'' _ _ j p Hin. apply HL in Hin. destruct Hin as [Hj Hin]. rewrite Ha. apply Hread; [exact Hj|].
    rewrite <- numbered_fst. now apply (in_map fst) in Hin. }
  { exact Hnd. } { exact Hrng. }
  rewrite <- Ha in *.
  destruct (entries_relist h s E l l' HE ltac:(rewrite <- Ha; exact Hl) E2) as (d1 & Ed1 & HE').
  rewrite Ed in Ed1. injection Ed1 as <-. rewrite <- Ha in HE'.
  exists l', (revalue (boff d) l' E). split; [exact E1|]. split; [exact HE'|]. split; [apply revalue_fst|].
  pose proof (entries_ordered h s E HE) as Ho.
  assert (Habs : forall u i, ~ In i (map fst E) -> lookup (revalue (boff d) l' E) u i = lookup E u i).
  { intros u i Hn. rewrite !lookup_absent; auto. now rewrite revalue_fst. }
  split; [|split; [|exact Habs]].
  - intros u j Hj Hin. destruct (stored_pos E _ Hin) as (k & Hk & Ek).
    rewrite (revalue_lookup _ (boff d) l' E u _ k Ho Hk Ek).
    apply E3. apply HL. split; [exact Hj|]. now apply In_numbered.
  - intros u i Hni. destruct (in_dec (list_eq_dec Z.eq_dec) i (map fst E)) as [Hin|Hn]; [|now apply Habs].
    destruct (stored_pos E i Hin) as (k & Hk & ->).
    apply (sparse_rewrite h s E d l l' u HE Ed Hl k Hk). apply E4.
    + apply (entries_range h s E d l HE Ed Hl k Hk).
    + intros j p Hin' Eq. assert (p = k) as -> by lia. apply HL in Hin'. destruct Hin' as [Hj Hin'].
      apply In_numbered in Hin'. apply Hni. exists j. split; [exact Hj|apply Hin'].
Qed.

(** Also when the assignment fails, only selected elements can differ. *)
Lemma sparse_write_only h s E ix value h' r : entries h s E -> positive (shape_of s) -> ok_index ix (shape_of s) ->
  slice_shape ix (shape_of s) <> [] -> setitem h s ix value = (h', r) ->
  exists E', entries h' s E' /\ map fst E' = map fst E
    /\ (forall u i, ~ hit ix (shape_of s) i -> lookup E' u i = lookup E u i).
Proof.
  intros HE Hp Hok Hne Ew.
  destruct (sparse_positions h s E ix HE Hp Hok Hne) as (L & d & EL & Ed & HL & Hnd).
  rewrite (sparse_setitem_run h s ix value d L (entries_sparse h s E HE) (entries_separate h s E HE) EL) in Ew.
  destruct (entries_data h s E HE) as (d0 & Ed0 & (l & Hl & _) & _ & Ha).
  rewrite Ed in Ed0. injection Ed0 as <-.
  assert (Hrng : Forall (fun e => 0 <= boff d + snd e < zlen l) L).
  { apply Forall_forall. intros [j p] Hin. apply HL in Hin. destruct Hin as [_ Hin].
    apply In_numbered in Hin. cbn [snd]. now apply (entries_range h s E d l HE Ed Hl). }
  destruct (write_loop_buf_only d value L h l h' r Hl Hrng Ew) as (l' & E1 & E2 & E4).
  destruct (entries_relist h s E l l' HE ltac:(rewrite <- Ha; exact Hl) E2) as (d1 & Ed1 & HE').
  rewrite Ed in Ed1. injection Ed1 as <-. rewrite <- Ha, <- E1 in HE'.
  exists (revalue (boff d) l' E). split; [exact HE'|]. split; [apply revalue_fst|].
  intros u i Hni. destruct (in_dec (list_eq_dec Z.eq_dec) i (map fst E)) as [Hin|Hn].
  - destruct (stored_pos E i Hin) as (k & Hk & ->).
    apply (sparse_rewrite h s E d l l' u HE Ed Hl k Hk). apply E4.
    + apply (entries_range h s E d l HE Ed Hl k Hk).
    + intros j p Hin' Eq. assert (p = k) as -> by lia. apply HL in Hin'. destruct Hin' as [Hj Hin'].
      apply In_numbered in Hin'. apply Hni. exists j. split; [exact Hj|apply Hin'].
  - rewrite !lookup_absent; auto. now rewrite revalue_fst.
Qed.

(** * Element indices on the classes using the generic position search *)
Lemma solve_empty pos : solve_index_data pos [] (SD 1 [] [] [] [] None) = Ok (Some []).
Proof.
  unfold solve_index_data. cbn. unfold pymod, pydiv. cbn. rewrite Z.mod_1_r. reflexivity.
Qed.

(** Every index is found at every position. *)
Lemma slice_iad_empty {P} sh0 (l : list (list Z * P)) off :
  Forall (fun e => length (fst e) = length sh0) l ->
  slice_iad sh0 (Ok l) [] [] off = Ok (map (fun e => ([], snd e)) l).
Proof.
  intros H. unfold slice_iad. cbn [init_diophantine bind].
  induction H as [|[i p] l Hi H IH]; cbn [slice_iad_loop map]; [reflexivity|].
  rewrite get_position_ok; [|exact Hi|apply make_strides_length]. cbn [bind].
  rewrite solve_empty. cbn [bind]. rewrite IH. reflexivity.
Qed.

Lemma element_strides nix sh st : n_shape nix sh = [] -> length st = length sh -> n_strides nix st = [].
Proof.
  intros H Hl. apply length_zero_iff_nil. rewrite (n_strides_length nix sh st Hl), H. reflexivity.
Qed.

Lemma sparse_write_element h s E ix v : entries h s E -> positive (shape_of s) -> ok_index ix (shape_of s) ->
  slice_shape ix (shape_of s) = [] ->
  exists l', setitem h s ix (SrcSeq v) = (set_nth (data_addr s) l' h, Ok tt)
    /\ entries (set_nth (data_addr s) l' h) s (map_snd (fun _ => v) E).
Proof.
  intros HE Hp Hok Hnil. set (sh := shape_of s) in *. pose proof Hok as [Hitems _].
  set (nix := norm_items (index_items ix) sh).
  assert (Hn : normal_index nix sh) by now apply norm_items_normal.
  assert (Es : n_shape nix sh = []) by (rewrite <- Hnil; now apply norm_items_shape).
  destruct (entries_data h s E HE) as (d & Ed & Hh & _ & Ha).
  assert (Est : strides_of s = make_strides sh) by (destruct s; try contradiction; reflexivity).
  pose proof (entries_ordered h s E HE) as Ho. fold sh in Ho.
  rewrite (sparse_setitem_run h s ix (SrcSeq v) d (map (fun e => ([], snd e)) (numbered E))
             (entries_sparse h s E HE) (entries_separate h s E HE)).
  2:{ fold sh. rewrite normalize_index_ok by assumption. fold nix. cbn [bind]. rewrite Est.
      rewrite index_strided_ok; [|assumption|assumption|apply make_strides_length]. cbn [bind].
      rewrite Ed. cbn [bind]. rewrite (sparse_iad_ok h s E HE Hp), Es.
      rewrite (element_strides nix sh (make_strides sh) Es (make_strides_length sh)).
      rewrite slice_iad_empty; [reflexivity|].
      eapply Forall_impl; [|apply (numbered_in_box sh E Ho)]. intros e He. now apply in_box_len. }
  pose proof Hh as (l & Hl & _).
  destruct (write_loop_buf d (SrcSeq v) (fun _ => v) (map (fun e => ([], snd e)) (numbered E)) h l Hl)
    as (l' & E1 & E2 & E3 & E4).
  - intros l'' _ _ j p Hin. apply in_map_iff in Hin. destruct Hin as (e & Ee & _). injection Ee as <- _. reflexivity.
  - rewrite map_map. cbn [snd]. unfold numbered. rewrite map_map. cbn [snd]. rewrite map_id. apply NoDup_zseq.
  - apply Forall_forall. intros e Hin. apply in_map_iff in Hin. destruct Hin as ([i p] & <- & Hin).
    apply In_numbered in Hin. cbn [snd]. now apply (entries_range h s E d l HE Ed Hl).
  - exists l'. rewrite <- Ha at 1. split; [exact E1|].
    destruct (entries_relist h s E l l' HE ltac:(rewrite <- Ha; exact Hl) E2) as (d1 & Ed1 & HE').
    rewrite Ed in Ed1. injection Ed1 as <-.
    assert (Eq : revalue (boff d) l' E = map_snd (fun _ => v) E); [|now rewrite <- Eq].
    unfold revalue, map_snd, numbered. rewrite map_map. cbn [fst snd].
    transitivity (map (fun e : list Z * pyval => (fst e, v)) (map (fun k => nth (Z.to_nat k) E ([], VNone)) (zseq (zlen E)))).
    + rewrite map_map. apply map_ext_in. intros k Hk. f_equal. apply (E3 []). apply in_map_iff.
      eexists (_, k). split; [reflexivity|]. apply In_numbered. split; [now apply In_zseq|reflexivity].
    + now rewrite map_nth_zseq.
Qed.

(** * Element assignment to the dense classes *)
Definition upd (g : list Z -> pyval) (r : list Z) (v : pyval) : list Z -> pyval :=
  fun i => if lex_eqb i r then v else g i.

Definition elem_data (d : storage) : Prop :=
  match d with SBuffer _ | SStrided _ => True | _ => False end.

Lemma int_tuple_shape r sh : length r = length sh -> slice_shape (int_tuple r) sh = [].
Proof.
  unfold slice_shape, int_tuple. cbn [index_items]. revert sh.
  induction r as [|x r IH]; intros [|n sh] H; cbn in H; try discriminate; [reflexivity|].
  cbn [map items_shape]. apply IH. lia.
Qed.

Lemma int_tuple_source r sh : in_box r sh -> source_index (int_tuple r) sh [] = r.
Proof.
  intros H. unfold source_index, int_tuple. cbn [index_items]. induction H as [|x n r sh Hx H IH]; [reflexivity|].
  cbn [map items_source]. rewrite IH. f_equal. apply Z.mod_small. lia.
Qed.

Lemma int_tuple_ok r sh : length r = length sh -> ok_index (int_tuple r) sh.
Proof.
  intros H. split; cbn [int_tuple index_items]; [|right; rewrite map_length; lia].
  apply Forall_forall. intros x Hx. apply in_map_iff in Hx. destruct Hx as (z & <- & _). exact I.
Qed.

Lemma strided_write_element h t f ix v : repr h (SStrided t) f -> positive (sshape t) -> ok_index ix (sshape t) ->
  slice_shape ix (sshape t) = [] ->
  exists h', setitem h (SStrided t) ix (SrcSeq v) = (h', Ok tt)
    /\ updated (baddr (sdata t)) h h'
    /\ repr h' (SStrided t) (upd f (source_index ix (sshape t) []) v).
Proof.
  intros (l & Hl & Ht & Hf) Hp Hok Hnil.
  assert (Hsrc : in_box (source_index ix (sshape t) []) (sshape t)).
  { apply source_index_in_box; auto. rewrite Hnil. constructor. }
  destruct (strided_write h t l ix (SrcSeq v) (fun _ => v) Hl Ht Hp Hok) as (l' & E1 & E2 & E3 & E4).
  { intros l'' _ _ j Hj. rewrite Hnil in Hj. inversion Hj; subst. reflexivity. }
  eexists. split; [exact E1|]. split; [now apply (updated_set _ h l)|].
  eapply repr_ext; [|apply (strided_relist h t l l' Hl Ht E2)]. cbn [shape_of]. intros i Hi. unfold upd.
  destruct (lex_eqb i (source_index ix (sshape t) [])) eqn:El.
  - apply lex_eqb_eq in El. subst i. apply E3. rewrite Hnil. constructor.
  - rewrite Hf by exact Hi. apply E4; [apply (so_pos _ _ Ht _ Hi)|].
    intros j Hj. rewrite Hnil in Hj. inversion Hj; subst. intros Eq.
    apply (so_inj _ _ Ht) in Eq; auto. subst i. now rewrite lex_eqb_refl in El.
Qed.

Lemma buffer_write_element h b f ix k v : repr h (SBuffer b) f -> 0 <= k < bsize b ->
  index_items ix = [IInt k] ->
  exists h', setitem h (SBuffer b) ix (SrcSeq v) = (h', Ok tt)
    /\ updated (baddr b) h h' /\ repr h' (SBuffer b) (upd f [k] v).
Proof.
  intros (vs & Hh & Hf) Hk Hix. pose proof Hh as (l & Hl & Ho & Hs & He & Hw).
  cbn [setitem]. unfold buffer_setitem.
  assert (Ec : buf_complete_index ix = Ok (IInt k)).
  { destruct ix as [i|l0]; cbn [index_items] in Hix; [injection Hix as ->|subst l0]; reflexivity. }
  rewrite Ec. unfold buf_write, buf_set. rewrite (cell_ok _ _ _ Hl). cbn [bind]. rewrite pyset_ok by lia. cbn [bind].
  eexists. split; [reflexivity|]. set (l' := set_nth (Z.to_nat (boff b + k)) v l).
  assert (Hlen : length l' = length l) by apply set_nth_length.
  split; [now apply (updated_set _ h l)|]. cbn [repr].
  exists (firstn (length vs) (skipn (Z.to_nat (boff b)) l')).
  unfold zlen in *.
  assert (Hfl : length (firstn (length vs) (skipn (Z.to_nat (boff b)) l')) = length vs).
  { rewrite firstn_length, skipn_length, Hlen. lia. }
  split.
  - exists l'. split; [apply set_nth_error_same; apply nth_error_Some; congruence|]. split; [exact Ho|].
    unfold zlen. rewrite Hfl. split; [exact Hs|]. split; [lia|reflexivity].
  - unfold zlen. rewrite Hfl. intros x Hx. rewrite nth_firstn by lia. rewrite nth_skipn. unfold l'.
    rewrite set_nth_nth by lia. unfold upd. cbn [lex_eqb]. rewrite andb_true_r.
    destruct (x =? k) eqn:Ex.
    + replace (Nat.eqb _ _) with true; [reflexivity|]. symmetry. apply Nat.eqb_eq. lia.
    + replace (Nat.eqb _ _) with false by (symmetry; apply Nat.eqb_neq; lia).
      rewrite Hf by exact Hx. rewrite <- Hw at 1. rewrite nth_firstn by lia. now rewrite nth_skipn.
Qed.

Lemma elem_write d h g r v : elem_data d -> repr h d g -> in_box r (shape_of d) ->
  exists h', setitem h d (int_tuple r) (SrcSeq v) = (h', Ok tt)
    /\ updated (data_addr d) h h' /\ repr h' d (upd g r v).
Proof.
  intros Hd Hr Hb. destruct d; try contradiction; cbn [shape_of data_addr] in *.
  - inversion Hb as [|k ? i' ? Hk Hb']; subst. inversion Hb'; subst.
    now apply (buffer_write_element h b g (int_tuple [k]) k v Hr Hk).
  - pose proof (strided_write_element h s g (int_tuple r) v Hr (in_box_positive_shape _ _ Hb)
                  (int_tuple_ok r _ (in_box_len _ _ Hb)) (int_tuple_shape r _ (in_box_len _ _ Hb))) as X.
    rewrite (int_tuple_source r _ Hb) in X. exact X.
Qed.

(** * DM over a dense class *)
Lemma dm_write_loop d value val : elem_data d -> forall L h g, repr h d g ->
  (forall h'', updated (data_addr d) h h'' -> forall vi p, In (vi, p) L -> get_value h'' value vi = Ok (val vi)) ->
  NoDup (map snd L) -> Forall (fun e => in_box (snd e) (shape_of d)) L ->
  exists h' g', write_loop (fun h r v => setitem h d (int_tuple r) (SrcSeq v)) value L h = (h', Ok tt)
    /\ updated (data_addr d) h h' /\ repr h' d g'
    /\ (forall vi p, In (vi, p) L -> g' p = val vi)
    /\ (forall q, ~ In q (map snd L) -> g' q = g q).
Proof.
  intros Hd. induction L as [|[vi p] L IH]; intros h g Hr Hread Hnd Hb; cbn [write_loop].
  - exists h, g. split; [reflexivity|]. split; [apply updated_refl|]. split; [exact Hr|]. split; [intros ? ? []|auto].
  - inversion Hnd as [|? ? N1 N2]; subst. inversion Hb as [|? ? B1 B2]; subst. cbn [snd] in *.
    rewrite (Hread h (updated_refl _ _) vi p (or_introl eq_refl)).
    destruct (elem_write d h g p (val vi) Hd Hr B1) as (h1 & E1 & E2 & E3). rewrite E1.
    destruct (IH h1 _ E3) as (h' & g' & F1 & F2 & F3 & F4 & F5); auto.
    { intros h'' Hu v2 p2 Hin. apply (Hread h'') with (p := p2); [eapply updated_trans; eassumption|now right]. }
    exists h', g'. split; [exact F1|]. split; [eapply updated_trans; eassumption|]. split; [exact F3|]. split.
    + intros v2 p2 [E|Hin]; [|now apply F4]. injection E as <- <-. rewrite F5 by exact N1.
      unfold upd. now rewrite lex_eqb_refl.
    + intros q Hq. cbn [map] in Hq. rewrite F5 by (intros Hin; apply Hq; now right).
      unfold upd. destruct (lex_eqb q p) eqn:El; [|reflexivity]. apply lex_eqb_eq in El. subst q.
      exfalso. apply Hq. now left.
Qed.

Lemma dm_write_loop_only d value : elem_data d -> forall L h g h' r, repr h d g ->
  Forall (fun e => in_box (snd e) (shape_of d)) L ->
  write_loop (fun h r v => setitem h d (int_tuple r) (SrcSeq v)) value L h = (h', r) ->
  exists g', repr h' d g' /\ (forall q, ~ In q (map snd L) -> g' q = g q).
Proof.
  intros Hd. induction L as [|[vi p] L IH]; intros h g h' r Hr Hb; cbn [write_loop].
  - intros E. injection E as <- <-. exists g. auto.
  - inversion Hb as [|? ? B1 B2]; subst. cbn [snd] in *.
    destruct (get_value h value vi) as [x|e].
    2:{ intros E. injection E as <- <-. exists g. auto. }
    destruct (elem_write d h g p x Hd Hr B1) as (h1 & E1 & E2 & E3). rewrite E1. intros E.
    destruct (IH h1 _ h' r E3 B2 E) as (g' & F1 & F2). exists g'. split; [exact F1|].
    intros q Hq. cbn [map] in Hq. rewrite F2 by (intros Hin; apply Hq; now right).
    unfold upd. destruct (lex_eqb q p) eqn:El; [|reflexivity]. apply lex_eqb_eq in El. subst q.
    exfalso. apply Hq. now left.
Qed.

Lemma dm_iad_ok sh rd rsh rs ro dsh : dm_ok sh rd rsh rs ro dsh ->
  dm_iad sh rd rsh rs ro = Ok (map (fun i => (i, dm_index rd rs ro i)) (cart sh)).
Proof.
  intros Hd. unfold dm_iad. rewrite (dm_rshapes _ _ _ _ _ _ Hd). apply mapM_ok. intros i Hi. apply In_cart in Hi.
  rewrite reduce_index_dm; [reflexivity|apply (dm_rstrides _ _ _ _ _ _ Hd)| |apply (dm_roffset _ _ _ _ _ _ Hd)].
  rewrite (in_box_zlen _ _ Hi). apply perm_axes, (dm_perm _ _ _ _ _ _ Hd).
Qed.

Lemma dm_positions sh rd rsh rs ro dsh ix : dm_ok sh rd rsh rs ro dsh -> positive sh -> ok_index ix sh ->
  slice_shape ix sh <> [] ->
  exists L, (nix <- normalize_index ix sh ;;
             '(sh', st, off) <- index_strided nix sh (make_strides sh) 0 ;;
             slice_iad sh (dm_iad sh rd rsh rs ro) sh' st off) = Ok L
    /\ (forall j p, In (j, p) L <-> in_box j (slice_shape ix sh) /\ p = dm_index rd rs ro (source_index ix sh j))
    /\ NoDup (map snd L) /\ Forall (fun e => in_box (snd e) dsh) L.
Proof.
  intros Hd Hp Hok Hne. pose proof Hok as [Hitems _]. set (nix := norm_items (index_items ix) sh).
  assert (Hn : normal_index nix sh) by now apply norm_items_normal.
  assert (Es : n_shape nix sh = slice_shape ix sh) by now apply norm_items_shape.
  rewrite normalize_index_ok by assumption. fold nix. cbn [bind].
  rewrite index_strided_ok; [|assumption|assumption|apply make_strides_length]. cbn [bind]. rewrite Z.add_0_l.
  rewrite (dm_iad_ok _ _ _ _ _ _ Hd).
  destruct (slice_iad_ok sh (map (fun i => (i, dm_index rd rs ro i)) (cart sh)) nix Hp Hn ltac:(now rewrite Es))
    as (L & EL & HL & HN).
  { apply Forall_forall. intros e He. apply in_map_iff in He. destruct He as (i & <- & Hi). now apply In_cart. }
  { rewrite map_map. cbn [fst]. rewrite map_id. apply sorted_NoDup, cart_sorted. }
  exists L. split; [exact EL|].
  assert (HL' : forall j p, In (j, p) L <-> in_box j (slice_shape ix sh) /\ p = dm_index rd rs ro (source_index ix sh j)).
  { intros j p. rewrite HL, Es, in_map_iff. split.
    - intros [Hj (i & Ei & Hi)]. injection Ei as Ei <-. split; [exact Hj|]. subst i. f_equal.
      now apply norm_items_source.
    - intros [Hj ->]. split; [exact Hj|]. exists (n_source nix sh j). split.
      + unfold source_index. rewrite <- norm_items_source by assumption. reflexivity.
      + apply In_cart. apply n_source_in_box; auto. now rewrite Es. }
  split; [exact HL'|]. split.
  - apply NoDup_map_snd; [exact HN|]. intros j j' p H1 H2. apply HL' in H1, H2.
    destruct H1 as [B1 ->]. destruct H2 as [B2 Eq].
    apply (dm_inj _ _ _ _ _ _ Hd) in Eq; try now apply source_index_in_box.
    unfold source_index in Eq. rewrite <- !norm_items_source in Eq by assumption.
    apply (n_source_inj nix sh); auto; now rewrite Es.
  - apply Forall_forall. intros [j p] Hin. apply HL' in Hin. destruct Hin as [Hj ->]. cbn [snd].
    apply (dm_box _ _ _ _ _ _ Hd). now apply source_index_in_box.
Qed.

Lemma dm_write h sh rd rsh rs ro d f ix value val : repr h (SDM sh rd rsh rs ro d) f -> elem_data d ->
  positive sh -> ok_index ix sh -> slice_shape ix sh <> [] ->
  (forall h'', updated (data_addr d) h h'' -> forall j, in_box j (slice_shape ix sh) ->
     get_value h'' value j = Ok (val j)) ->
  exists h' f', setitem h (SDM sh rd rsh rs ro d) ix value = (h', Ok tt)
    /\ updated (data_addr d) h h' /\ repr h' (SDM sh rd rsh rs ro d) f'
    /\ (forall j, in_box j (slice_shape ix sh) -> f' (source_index ix sh j) = val j)
    /\ (forall i, in_box i sh -> ~ hit ix sh i -> f' i = f i).
Proof.
  intros (g & Hg & Hd & Hf) He Hp Hok Hne Hread.
  destruct (dm_positions _ _ _ _ _ _ ix Hd Hp Hok Hne) as (L & EL & HL & Hnd & Hb).
  destruct (dm_write_loop d value val He L h g Hg) as (h' & g' & E1 & E2 & E3 & E4 & E5); auto.
  { intros h'' Hu j p Hin. apply Hread; [exact Hu|]. apply HL in Hin. apply Hin. }
  exists h', (fun i => g' (dm_index rd rs ro i)). rewrite (dm_setitem_run _ _ _ _ _ _ _ _ _ _ EL). split; [exact E1|].
  split; [exact E2|]. split; [exists g'; split; [exact E3|now split]|]. split.
  - intros j Hj. apply E4. apply HL. auto.
  - intros i Hi Hn. rewrite Hf by exact Hi. apply E5. intros Hin. apply in_map_iff in Hin.
    destruct Hin as ([j p] & Ep & Hin). cbn in Ep. subst p. apply HL in Hin. destruct Hin as [Hj Eq].
    apply (dm_inj _ _ _ _ _ _ Hd) in Eq; auto; [|now apply source_index_in_box].
    apply Hn. exists j. auto.
Qed.

Lemma dm_write_only h sh rd rsh rs ro d f ix value h' r : repr h (SDM sh rd rsh rs ro d) f -> elem_data d ->
  positive sh -> ok_index ix sh -> slice_shape ix sh <> [] ->
  setitem h (SDM sh rd rsh rs ro d) ix value = (h', r) ->
  exists f', repr h' (SDM sh rd rsh rs ro d) f'
    /\ (forall i, in_box i sh -> ~ hit ix sh i -> f' i = f i).
Proof.
  intros (g & Hg & Hd & Hf) He Hp Hok Hne.
  destruct (dm_positions _ _ _ _ _ _ ix Hd Hp Hok Hne) as (L & EL & HL & Hnd & Hb).
  rewrite (dm_setitem_run _ _ _ _ _ _ _ _ _ _ EL). intros E.
  destruct (dm_write_loop_only d value He L h g h' r Hg Hb E) as (g' & E3 & E5).
  exists (fun i => g' (dm_index rd rs ro i)). split; [exists g'; split; [exact E3|now split]|].
  intros i Hi Hn. rewrite Hf by exact Hi. apply E5. intros Hin. apply in_map_iff in Hin.
  destruct Hin as ([j p] & Ep & Hin). cbn in Ep. subst p. apply HL in Hin. destruct Hin as [Hj Eq].
  apply (dm_inj _ _ _ _ _ _ Hd) in Eq; auto; [|now apply source_index_in_box].
  apply Hn. exists j. auto.
Qed.

(** An element assignment overwrites the whole array. *)
Lemma dm_write_element h sh rd rsh rs ro d f ix v : repr h (SDM sh rd rsh rs ro d) f -> elem_data d ->
  positive sh -> ok_index ix sh -> slice_shape ix sh = [] ->
  exists h', setitem h (SDM sh rd rsh rs ro d) ix (SrcSeq v) = (h', Ok tt)
    /\ repr h' (SDM sh rd rsh rs ro d) (fun _ => v).
Proof.
  intros (g & Hg & Hd & Hf) He Hp Hok Hnil. pose proof Hok as [Hitems _].
  set (nix := norm_items (index_items ix) sh).
  assert (Hn : normal_index nix sh) by now apply norm_items_normal.
  assert (Es : n_shape nix sh = []) by (rewrite <- Hnil; now apply norm_items_shape).
  erewrite dm_setitem_run.
  2:{ rewrite normalize_index_ok by assumption. fold nix. cbn [bind].
      rewrite index_strided_ok; [|assumption|assumption|apply make_strides_length]. cbn [bind]. rewrite Z.add_0_l.
      rewrite (dm_iad_ok _ _ _ _ _ _ Hd), Es.
      rewrite (element_strides nix sh (make_strides sh) Es (make_strides_length sh)).
      apply slice_iad_empty.
      apply Forall_forall. intros e Hin. apply in_map_iff in Hin. destruct Hin as (i & <- & Hi).
      apply In_cart in Hi. now apply in_box_len. }
  set (L := map _ _).
  destruct (dm_write_loop d (SrcSeq v) (fun _ => v) He L h g Hg) as (h' & g' & E1 & E2 & E3 & E4 & E5).
  - intros h'' _ vi p Hin. unfold L in Hin. rewrite map_map in Hin. apply in_map_iff in Hin.
    destruct Hin as (i & Ei & _). injection Ei as <- _. reflexivity.
  - unfold L. rewrite !map_map. cbn [snd].
    assert (G : forall l, Forall (fun i => in_box i sh) l -> NoDup l -> NoDup (map (dm_index rd rs ro) l)).
    { induction 1 as [|i l Hi Hl IH]; intros Hnd; cbn [map]; [constructor|]. inversion Hnd as [|? ? N1 N2]; subst.
      constructor; [|now apply IH]. intros Hin. apply in_map_iff in Hin. destruct Hin as (k & Ek & Hk).
      apply N1. rewrite Forall_forall in Hl.
      apply (dm_inj _ _ _ _ _ _ Hd) in Ek; auto. now subst k. }
    apply G; [apply Forall_forall; intros i; apply In_cart|apply sorted_NoDup, cart_sorted].
  - unfold L. rewrite map_map. apply Forall_forall. intros e Hin. apply in_map_iff in Hin.
    destruct Hin as (i & <- & Hi). apply In_cart in Hi. cbn [snd]. now apply (dm_box _ _ _ _ _ _ Hd).
  - exists h'. split; [exact E1|]. exists g'. split; [exact E3|]. split; [exact Hd|]. intros i Hi. symmetry.
    apply (E4 []). unfold L. rewrite map_map. apply in_map_iff. exists i. split; [reflexivity|now apply In_cart].
Qed.

(** * Well-formedness *)

Lemma sparse_valid_updated s h h' a : is_sparse s -> valid h s -> updated a h h' -> ~ In a (index_addrs s) -> valid h' s.
Proof.
  intros Hs [f Hr] Hu Hni.
  assert (HE : exists E, entries h s E) by (destruct s; try contradiction; destruct Hr as (E & HE & _); eauto).
  destruct HE as [E HE].
  assert (HE' : exists E', entries h' s E').
  { destruct (Nat.eq_dec (data_addr s) a) as [Ea|Ea].
    - destruct (entries_data h s E HE) as (d & Ed & (l & Hl & _) & _ & Ha). rewrite Ha in Hl.
      destruct (up_cell _ _ _ Hu l ltac:(now rewrite <- Ea)) as (l' & Hl' & Hlen).
      destruct (entries_relist h s E l l' HE Hl Hlen) as (d' & _ & HE').
      eexists. eapply entries_frame; [|exact HE']. intros b Hb. destruct (Nat.eq_dec b a) as [->|Hb'].
      + rewrite Hl', Ea. symmetry. apply set_nth_error_same. apply nth_error_Some. congruence.
      + rewrite (up_other _ _ _ Hu) by exact Hb'. symmetry. apply set_nth_error_other. congruence.
    - exists E. eapply entries_frame; [|exact HE]. intros b Hb. apply (up_other _ _ _ Hu).
      destruct Hb as [<-|Hb]; [congruence|]. intros ->. contradiction. }
  destruct HE' as [E' HE']. exists (lookup E' (unspecified_of s)).
  destruct s; try contradiction; exists E'; (split; [exact HE'|reflexivity]).
Qed.

(** Storages whose index lists are not overwritten stay well-formed. *)
Lemma valid_updated : forall s h h' a, valid h s -> updated a h h' -> ~ In a (index_addrs s) -> valid h' s.
Proof.
  induction s as [b|t|sh ind d|sh fi d|sh cr co d|sh ch a0 b c d|sh rd rsh rs ro d IH];
    intros h h' a [f Hr] Hu Hni.
  - destruct (Nat.eq_dec (baddr b) a) as [Ea|Ea].
    + destruct Hr as (vs & (l & Hl & Ho & Hs & He & Hw) & Hf). rewrite Ea in Hl.
      destruct (up_cell _ _ _ Hu l Hl) as (l' & Hl' & Hlen). unfold zlen in *.
      assert (Hfl : length (firstn (length vs) (skipn (Z.to_nat (boff b)) l')) = length vs).
      { rewrite firstn_length, skipn_length, Hlen. lia. }
      exists (fun i => nth (Z.to_nat (nth 0 i 0)) (firstn (length vs) (skipn (Z.to_nat (boff b)) l')) VNone).
      exists (firstn (length vs) (skipn (Z.to_nat (boff b)) l')). split; [|reflexivity].
      exists l'. rewrite Ea. split; [exact Hl'|]. split; [exact Ho|]. unfold zlen. rewrite Hfl.
      split; [exact Hs|]. split; [lia|reflexivity].
    + exists f. eapply repr_frame; [|exact Hr]. intros x [<-|[]]. now apply (up_other _ _ _ Hu).
  - destruct (Nat.eq_dec (baddr (sdata t)) a) as [Ea|Ea].
    + destruct Hr as (l & Hl & Ht & Hf). rewrite Ea in Hl.
      destruct (up_cell _ _ _ Hu l Hl) as (l' & Hl' & Hlen).
      eexists. exists l'. rewrite Ea. split; [exact Hl'|]. split; [now apply (strided_ok_length t l)|]. reflexivity.
    + exists f. eapply repr_frame; [|exact Hr]. intros x [<-|[]]. now apply (up_other _ _ _ Hu).
  - apply (sparse_valid_updated (SCOO sh ind d) h h' a I); auto. now exists f.
  - apply (sparse_valid_updated (SFlatCOO sh fi d) h h' a I); auto. now exists f.
  - apply (sparse_valid_updated (SCSR sh cr co d) h h' a I); auto. now exists f.
  - destruct Hr as (E & HE & _). destruct HE.
  - destruct Hr as (g & Hg & Hd & Hf). destruct (IH h h' a (ex_intro _ g Hg) Hu Hni) as [g' Hg'].
    eexists. exists g'. split; [exact Hg'|]. split; [exact Hd|]. reflexivity.
Qed.

(** Programs of Threads.v: run alone they are the functions of Storage.v; accesses
    to different elements commute. *)
From Verif Require Import Py SliceTools Basics Storage Spec SliceFacts IndexFacts SolveFacts Repr ReprFacts CompressFacts ReduceFacts ViewFacts BuildFacts MapFacts WriteFacts Threads.

(** * Alone *)

Lemma run_bind {A B} (m : prog A) (f : A -> prog B) : forall h,
  run (pbind m f) h = match run m h with (h', Ok x) => run (f x) h' | (h', Raise e) => (h', Raise e) end.
Proof.
  induction m as [[x|e]|a p k IH|a p v k IH]; intros h; cbn [pbind run]; try reflexivity.
  - destruct (hget h a p); [apply IH|reflexivity].
  - destruct (hput h a p v); [apply IH|reflexivity].
Qed.

(** [m] only reads, with the result [g]. *)
Definition reads {A} (m : prog A) (g : heap -> res A) : Prop := forall h, run m h = (h, g h).

Lemma reads_ret {A} (r : res A) : reads (Ret r) (fun _ => r).
Proof. intros h. reflexivity. Qed.
Lemma reads_bind {A B} (m : prog A) (f : A -> prog B) g g' :
  reads m g -> (forall x, reads (f x) (g' x)) -> reads (pbind m f) (fun h => x <- g h ;; g' x h).
Proof.
  intros H1 H2 h. rewrite run_bind, H1. destruct (g h) as [x|e]; cbn [bind]; [apply H2|reflexivity].
Qed.
Lemma reads_eq {A} (m : prog A) g g' : reads m g -> (forall h, g h = g' h) -> reads m g'.
Proof. intros H E h. rewrite H, E. reflexivity. Qed.
Lemma reads_pre {A B} (r : res A) (f : A -> prog B) g' :
  (forall x, r = Ok x -> reads (f x) (g' x)) -> reads (pbind (Ret r) f) (fun h => x <- r ;; g' x h).
Proof. intros H h. destruct r; cbn [pbind bind]; [now apply H|reflexivity]. Qed.

Lemma reads_buf_get b i : reads (buf_get_t b i) (fun h => buf_get h b i).
Proof. intros h. unfold buf_get_t. cbn [run]. unfold hget, buf_get. destruct (l <- cell h (baddr b);; pyget l (boff b + i)); reflexivity. Qed.
Lemma reads_buf_int b i : reads (buf_int_t b i) (fun h => buf_int h b i).
Proof. apply reads_bind; [apply reads_buf_get|]. intros x. apply reads_ret. Qed.

Lemma int_tuple_element l sh nix : normalize_index (int_tuple l) sh = Ok nix ->
  is_element_index nix sh = Nat.eqb (length l) (length sh).
Proof.
  unfold int_tuple. cbn [normalize_index]. revert sh nix. induction l as [|i l IH]; intros [|n sh] nix H; cbn [map normalize_tuple] in H.
  - injection H as <-. reflexivity.
  - injection H as <-. unfold is_element_index. cbn [map]. cbn. now rewrite andb_comm.
  - discriminate.
  - apply bind_ok in H as (m & Em & H). apply bind_ok in H as (r & Er & H). injection H as <-.
    specialize (IH _ _ Er). unfold is_element_index in *. cbn [is_int_item forallb].
    unfold zlen in *. cbn [length Nat.eqb]. rewrite <- IH. cbn [andb]. f_equal.
    destruct (Nat.eq_dec (length r) (length sh)) as [X|X].
    + rewrite X. rewrite !Z.eqb_refl. reflexivity.
    + transitivity false; [|symmetry]; apply Z.eqb_neq; lia.
Qed.

Lemma reads_strided_elem t index : length index = length (sshape t) ->
  reads (strided_elem_t t index) (fun h => i <- strided_getitem h t (int_tuple index) ;; item_val i).
Proof.
  intros L h. unfold strided_elem_t, strided_getitem.
  destruct (normalize_index (int_tuple index) (sshape t)) as [nix|] eqn:E; cbn [pbind bind]; [|reflexivity].
  rewrite (int_tuple_element _ _ _ E), L, Nat.eqb_refl.
  destruct (get_position _ _ _) as [p|]; cbn [pbind bind]; [|reflexivity].
  rewrite reads_buf_get. destruct (buf_get h (sdata t) p); reflexivity.
Qed.
Lemma reads_strided_int t a b : length (sshape t) = 2%nat ->
  reads (strided_int_t t [a; b]) (fun h => strided_int h t (int_tuple [a; b])).
Proof.
  intros L. eapply reads_eq; [apply reads_bind; [now apply reads_strided_elem|intros x; apply reads_ret]|].
  intros h. unfold strided_int. destruct (strided_getitem h t _); cbn [bind]; [|reflexivity]. destruct (item_val a0); reflexivity.
Qed.

Lemma reads_bsearch d d' : (forall p, reads (d p) (fun h => d' h p)) ->
  forall fuel l r, reads (bsearch_t fuel l r d) (fun h => bsearch fuel l r (d' h)).
Proof.
  intros Hd. induction fuel as [|f IH]; intros l r; cbn [bsearch_t bsearch]; [apply reads_ret|].
  destruct (r <? l); [apply reads_ret|]. eapply reads_eq; [apply reads_bind; [apply Hd|]|].
  - intros c. instantiate (1 := fun c h => if c =? 0 then Ok (Some ((l + r) / 2)) else if c <? 0 then bsearch f ((l + r) / 2 + 1) r (d' h)
      else bsearch f l ((l + r) / 2 - 1) (d' h)). cbv beta. destruct (c =? 0); [apply reads_ret|]. destruct (c <? 0); apply IH.
  - reflexivity.
Qed.

Lemma reads_coo_diff ind p js ix : length (sshape ind) = 2%nat ->
  reads (coo_diff_t ind p js ix) (fun h => coo_diff h ind p js ix).
Proof.
  intros L. induction js as [|j js IH]; cbn [coo_diff_t coo_diff]; [apply reads_ret|].
  eapply reads_eq; [apply reads_bind; [now apply reads_strided_int|]|].
  - intros v. eapply reads_bind; [apply reads_ret|]. intros i.
    instantiate (1 := fun i h => if v - i =? 0 then coo_diff h ind p js ix else Ok (v - i)). cbv beta.
    destruct (v - i =? 0); [exact IH|apply reads_ret].
  - reflexivity.
Qed.

(** Arrays whose parts have the number of dimensions they should have. *)
Fixpoint fits (s : storage) : Prop :=
  match s with
  | SBuffer _ | SFlatCOO _ _ _ | SCSR _ _ _ _ | SC2SR _ _ _ _ _ _ => True
  | SStrided t => length (sstrides t) = length (sshape t)
  | SCOO _ ind _ => length (sshape ind) = 2%nat
  | SDM _ _ rshapes _ _ data => length (shape_of data) = length rshapes /\ fits data
  end.

Lemma reads_position s ix : fits s -> reads (flat_data_position_t s ix) (fun h => flat_data_position h s ix).
Proof.
  intros F. destruct s; cbn [flat_data_position_t flat_data_position]; try apply reads_ret.
  - eapply reads_bind; [apply reads_ret|]. intros x. apply reads_ret.
  - unfold get_coo_position_t, get_coo_position. eapply reads_bind; [apply reads_ret|]. intros n.
    apply (reads_bsearch _ (fun h pos => coo_diff h _ pos _ ix)). intros p. now apply reads_coo_diff.
  - eapply reads_bind; [apply reads_ret|]. intros p. unfold get_flatcoo_position_t, get_flatcoo_position.
    apply (reads_bsearch _ (fun h pos => v <- buf_int h _ pos ;; Ok (v - p))). intros q.
    eapply reads_bind; [apply reads_buf_int|]. intros x. apply reads_ret.
  - unfold get_csr_position_t, get_csr_position. destruct ix as [|r [|c [|]]]; try apply reads_ret.
    eapply reads_bind; [apply reads_buf_int|]. intros a. eapply reads_bind; [apply reads_buf_int|]. intros b.
    apply (reads_bsearch _ (fun h pos => v <- buf_int h _ pos ;; Ok (v - c))). intros q.
    eapply reads_bind; [apply reads_buf_int|]. intros x. apply reads_ret.
Qed.

Lemma reads_flat_elem s ix : fits s -> reads (flat_get_elem_t s ix) (fun h => flat_get_elem h s ix).
Proof.
  intros F. unfold flat_get_elem_t, flat_get_elem. eapply reads_bind; [now apply reads_position|].
  intros [p|]; [|apply reads_ret]. eapply reads_bind; [apply reads_ret|]. intros d. apply reads_buf_get.
Qed.

Lemma reduce_index_length : forall rsh rd rs ro ix r, reduce_index rsh rd rs ro ix = Ok r -> length r = length rsh.
Proof.
  induction rsh as [|s rsh IH]; intros rd rs ro ix r H; cbn [reduce_index] in H; [now injection H as <-|].
  destruct ro, rs, rd; try discriminate. apply bind_ok in H as (p & _ & H). apply bind_ok in H as (q & E & H).
  injection H as <-. cbn. f_equal. eapply IH. exact E.
Qed.

Lemma run_get_elem : forall s ix, fits s -> length ix = length (shape_of s) ->
  reads (get_elem_t s ix) (fun h => get_elem h s ix).
Proof.
  assert (G : forall s ix, fits s -> length ix = length (shape_of s) ->
    match s with SCOO _ _ _ | SFlatCOO _ _ _ | SCSR _ _ _ _ | SC2SR _ _ _ _ _ _ => True | _ => False end ->
    reads (get_elem_t s ix) (fun h => get_elem h s ix)).
  { intros s ix F L C h. assert (X : forall nix, normalize_index (int_tuple ix) (shape_of s) = Ok nix -> is_element_index nix (shape_of s) = true).
    { intros nix E. rewrite (int_tuple_element _ _ _ E), L. apply Nat.eqb_refl. }
    unfold get_elem. destruct s; try contradiction; cbn [get_elem_t getitem shape_of] in *;
      (destruct (normalize_index _ _) as [nix|]; cbn [pbind bind]; [|reflexivity]);
      rewrite (X nix eq_refl), reads_flat_elem by exact F; destruct (flat_get_elem _ _ _); reflexivity. }
  induction s as [b|t|sh ind d|sh fi d|sh cr co d|sh ch a b c d|sh rd rsh rs ro d IH]; intros ix F L; try now apply G.
  - intros h. cbn [shape_of] in L. destruct ix as [|i [|]]; try discriminate. cbn [get_elem_t]. rewrite reads_buf_get.
    unfold get_elem. cbn [getitem]. unfold buffer_getitem. cbn. destruct (buf_get h b i); reflexivity.
  - cbn [get_elem_t]. intros h. rewrite reads_strided_elem by exact L. unfold get_elem. cbn [getitem].
    destruct (strided_getitem h t _); reflexivity.
  - intros h. cbn [get_elem_t shape_of fits] in *. unfold get_elem. cbn [getitem].
    destruct (normalize_index _ _) as [nix|] eqn:E; cbn [pbind bind]; [|reflexivity].
    rewrite (int_tuple_element _ _ _ E), L, Nat.eqb_refl.
    destruct (reduce_index _ _ _ _ _) as [r|] eqn:Er; cbn [pbind bind]; [|reflexivity]. destruct F as [F1 F2].
    rewrite IH; [reflexivity|exact F2|]. rewrite (reduce_index_length _ _ _ _ _ _ Er). now symmetry.
Qed.

(** A value that fits [n] dimensions. *)
Definition value_fits (value : source) (n : nat) : Prop :=
  match value with SrcSeq _ => True | SrcSto s => fits s /\ length (shape_of s) = n end.

Lemma reads_value value ix n : value_fits value n -> length ix = n ->
  reads (get_value_t value ix) (fun h => get_value h value ix).
Proof.
  intros F L. destruct value as [v|s]; cbn [get_value_t get_value]; [apply reads_ret|]. destruct F as [F1 F2].
  destruct ix as [|i ix]; [apply reads_ret|]. apply run_get_elem; [exact F1|congruence].
Qed.

(** ** Loops *)
Lemma run_for {X} (bt : X -> prog unit) (b : heap -> X -> outcome) : forall l,
  (forall h x, In x l -> run (bt x) h = b h x) -> forall h, run (for_t l bt) h = for_each l b h.
Proof.
  induction l as [|x l IH]; intros H h; cbn [for_t for_each]; [reflexivity|].
  rewrite run_bind, H by now left. destruct (b h x) as [h' [u|e]]; [|reflexivity]. apply IH. intros. apply H. now right.
Qed.

Lemma run_eval {A} (m : prog A) g (f : A -> prog unit) (k : heap -> A -> outcome) : reads m g ->
  (forall h x, g h = Ok x -> run (f x) h = k h x) -> forall h, run (pbind m f) h = eval h (g h) (k h).
Proof.
  intros Hm Hf h. rewrite run_bind, Hm. destruct (g h) as [x|e] eqn:E; cbn [eval]; [now apply Hf|reflexivity].
Qed.
Lemma run_pre {A} (r : res A) (f : A -> prog unit) (k : heap -> A -> outcome) :
  (forall h x, r = Ok x -> run (f x) h = k h x) -> forall h, run (pbind (Ret r) f) h = eval h r (k h).
Proof. intros H h. destruct r; cbn [pbind eval]; [now apply H|reflexivity]. Qed.

Lemma reads_mapM {X Y} (f : X -> prog Y) (g : heap -> X -> res Y) : (forall x, reads (f x) (fun h => g h x)) ->
  forall l, reads (mapM_t f l) (fun h => mapM (g h) l).
Proof.
  intros H. induction l as [|x l IH]; cbn [mapM_t mapM]; [apply reads_ret|].
  eapply reads_bind; [apply H|]. intros y. eapply reads_bind; [exact IH|]. intros ys. apply reads_ret.
Qed.

(** [G] and [g] run the same loop. *)
Definition ties {X} (P : X -> Prop) (G : generator_t X) (g : generator X) : Prop :=
  forall bt b, (forall h x, P x -> run (bt x) h = b h x) -> forall h, run (G bt) h = g b h.

Lemma ties_coo ind : length (sshape ind) = 2%nat -> ties (fun _ => True) (coo_gen_t ind) (coo_gen ind).
Proof.
  intros L bt b H h. unfold coo_gen_t, coo_gen.
  apply (run_pre _ _ (fun h n => for_each (zseq n) (fun h pos =>
        eval h (rows <- pyget (sshape ind) 0 ;; mapM (fun j => strided_int h ind (int_tuple [j; pos])) (zseq rows))
          (fun ix => b h (ix, pos))) h)).
  intros h0 n _. apply run_for. intros h1 pos _.
  destruct (pyget (sshape ind) 0) as [rows|]; cbn [pbind bind eval]; [|reflexivity].
  apply (run_eval _ (fun h => mapM (fun j => strided_int h ind (int_tuple [j; pos])) (zseq rows)) _ (fun h ix => b h (ix, pos))).
  - apply (reads_mapM _ (fun h j => strided_int h ind (int_tuple [j; pos]))). intros j. now apply reads_strided_int.
  - intros h2 x _. now apply H.
Qed.

Lemma ties_flatcoo sh f : ties (fun _ => True) (flatcoo_gen_t sh f) (flatcoo_gen sh f).
Proof.
  intros bt b H h. unfold flatcoo_gen_t, flatcoo_gen.
  apply (run_pre _ _ (fun h sd => for_each (zseq (bsize f)) (fun h pos =>
        eval h (g <- buf_int h f pos ;; i <- solve_index_data g sh sd ;; match i with Some ix => Ok ix | None => Raise TypeError end)
          (fun ix => b h (ix, pos))) h)).
  intros h0 sd _. apply run_for. intros h1 pos _. rewrite run_bind, reads_buf_int.
  destruct (buf_int h1 f pos) as [g|]; cbn [bind eval]; [|reflexivity].
  destruct (solve_index_data g sh sd) as [i|]; cbn [pbind bind eval run]; [|reflexivity].
  destruct i; cbn [pbind bind eval run]; [now apply H|reflexivity].
Qed.

Lemma ties_csr sh cr co : ties (fun _ => True) (csr_gen_t sh cr co) (csr_gen sh cr co).
Proof.
  intros bt b H h. unfold csr_gen_t, csr_gen.
  apply (run_pre _ _ (fun h n => for_each (zseq n) (fun h r =>
        eval h (a <- buf_int h cr r ;; b <- buf_int h cr (r + 1) ;; Ok (zrange a b)) (fun l =>
          for_each l (fun h pos => eval h (buf_int h co pos) (fun c => b h ([r; c], pos))) h)) h)).
  intros h0 n _. apply run_for. intros h1 r _. rewrite run_bind, reads_buf_int.
  destruct (buf_int h1 cr r) as [x|]; cbn [bind eval]; [|reflexivity]. rewrite run_bind, reads_buf_int.
  destruct (buf_int h1 cr (r + 1)) as [y|]; cbn [bind eval]; [|reflexivity]. apply run_for. intros h2 pos _.
  apply (run_eval _ (fun h => buf_int h co pos) _ (fun h c => b h ([r; c], pos))); [apply reads_buf_int|].
  intros h3 c _. now apply H.
Qed.

Lemma ties_sparse s : fits s -> ties (fun _ => True) (sparse_gen_t s) (sparse_gen s).
Proof.
  intros F. destruct s; cbn [sparse_gen_t sparse_gen fits] in *; try (intros bt b0 H h; reflexivity).
  - now apply ties_coo.
  - apply ties_flatcoo.
  - apply ties_csr.
Qed.

Lemma ties_dm sh rd rsh rs ro : ties (fun _ => True) (dm_gen_t sh rd rsh rs ro) (dm_gen sh rd rsh rs ro).
Proof.
  intros bt b H h. unfold dm_gen_t, dm_gen. apply run_for. intros h0 ix _.
  apply (run_pre _ _ (fun h r => b h (ix, r))). intros h1 r _. now apply H.
Qed.

Lemma cart_length sh i : In i (cart sh) -> length i = length sh.
Proof.
  revert i. induction sh as [|n sh IH]; intros i H; cbn [cart] in H.
  - destruct H as [<-|[]]. reflexivity.
  - apply in_flat_map in H as (x & _ & H). apply in_map_iff in H as (j & <- & H). cbn. f_equal. now apply IH.
Qed.

Lemma ties_strided sh st off : ties (fun x => length (fst x) = length sh) (strided_slice_gen_t sh st off) (strided_slice_gen sh st off).
Proof.
  intros bt b H h. unfold strided_slice_gen_t, strided_slice_gen. apply run_for. intros h0 ix Hi.
  apply (run_pre _ _ (fun h p => b h (ix, off + p))). intros h1 p _. apply H. cbn. now apply cart_length.
Qed.

Lemma solve_length st sh sd pos six : length sh = length st -> init_diophantine st (Some sh) = Ok sd ->
  solve_index_data pos sh sd = Ok (Some six) -> length six = length sh.
Proof.
  intros L E H. destruct st as [|x st].
  - destruct sh; [|discriminate]. injection E as <-. rewrite solve_empty in H. now injection H as <-.
  - assert (S : solve_index pos sh (x :: st) = Ok (Some six)) by (unfold solve_index; rewrite E; exact H).
    apply solve_index_sound in S as [S _]; [|discriminate|exact L]. clear - S. induction S; cbn; congruence.
Qed.

Lemma ties_slice {P} sh0 (G : generator_t (list Z * P)) g sh st off : length sh = length st ->
  ties (fun _ => True) G g -> ties (fun x => length (fst x) = length sh) (slice_gen_t sh0 G sh st off) (slice_gen sh0 g sh st off).
Proof.
  intros L T bt b H h. unfold slice_gen_t, slice_gen.
  destruct (init_diophantine st (Some sh)) as [sd|] eqn:E; cbn [pbind eval]; [|reflexivity]. apply T. intros h0 item _.
  destruct (get_position _ _ _) as [sp|]; cbn [pbind bind eval]; [|reflexivity].
  destruct (solve_index_data (sp - off) sh sd) as [[six|]|] eqn:Es; cbn [pbind eval run]; try reflexivity.
  apply H. cbn. eapply solve_length; eassumption.
Qed.

Lemma index_strided_lengths : forall nix sh st off sh' st' off', index_strided nix sh st off = Ok (sh', st', off') -> length sh' = length st'.
Proof.
  induction nix as [|i nix IH]; intros sh st off sh' st' off' H; cbn [index_strided] in H; [now injection H as <- <- _|].
  destruct sh as [|n sh], st as [|x st]; try (now injection H as <- <- _). destruct i.
  - eapply IH. exact H.
  - apply bind_ok in H as (? & _ & H). apply bind_ok in H as (? & _ & H). apply bind_ok in H as ([[? ?] ?] & E & H).
    injection H as <- <- <-. cbn. f_equal. eapply IH. exact E.
  - apply bind_ok in H as ([[? ?] ?] & E & H). injection H as <- <- <-. cbn. f_equal. eapply IH. exact E.
Qed.

Lemma none_shape : forall sh st off sh' st' off', length st = length sh ->
  index_strided (map (fun _ => NNone) sh) sh st off = Ok (sh', st', off') -> length sh' = length sh.
Proof.
  induction sh as [|n sh IH]; intros [|x st] off sh' st' off' L H; cbn [map index_strided] in H; try discriminate.
  - now injection H as <- _ _.
  - apply bind_ok in H as ([[? ?] ?] & E & H). injection H as <- <- <-. cbn. f_equal. eapply IH; [|exact E]. now injection L.
Qed.

Lemma tuple_shape_length : forall items sh st off nix sh' st' off', length st = length sh ->
  normalize_tuple items sh = Ok nix -> index_strided nix sh st off = Ok (sh', st', off') ->
  length sh' = length (items_shape items sh).
Proof.
  induction items as [|i items IH]; intros sh st off nix sh' st' off' L N H; cbn [normalize_tuple] in N.
  - injection N as <-. rewrite (none_shape _ _ _ _ _ _ L H). destruct sh; reflexivity.
  - destruct i as [z|sl| |], sh as [|n sh]; try discriminate; cbn [items_shape].
    + apply bind_ok in N as (m & _ & N). apply bind_ok in N as (r & E & N). injection N as <-. destruct st as [|x st]; [discriminate|].
      cbn [index_strided] in H. eapply IH; [|exact E|exact H]. now injection L.
    + apply bind_ok in N as (r & E & N). injection N as <-. destruct st as [|x st]; [discriminate|].
      cbn [index_strided] in H. apply bind_ok in H as (? & _ & H). apply bind_ok in H as (? & _ & H).
      apply bind_ok in H as ([[? ?] ?] & E2 & H). injection H as <- <- <-. cbn. f_equal. eapply IH; [|exact E|exact E2]. now injection L.
    + assert (nix = []) as ->. { clear - N. revert N. induction items as [|[] items IH]; cbn; intros N; try discriminate; [congruence|now apply IH]. }
      cbn [index_strided] in H. now injection H as <- _ _.
    + apply bind_ok in N as (r & E & N). injection N as <-. destruct st as [|x st]; [discriminate|].
      cbn [index_strided] in H. apply bind_ok in H as ([[? ?] ?] & E2 & H). injection H as <- <- <-. cbn. f_equal.
      eapply IH; [|exact E|exact E2]. now injection L.
Qed.

Lemma slice_dims ix sh st nix sh' st' off' : length st = length sh ->
  normalize_index ix sh = Ok nix -> index_strided nix sh st 0 = Ok (sh', st', off') ->
  length sh' = length (slice_shape ix sh).
Proof.
  intros L N H. unfold slice_shape. eapply tuple_shape_length; [exact L| |exact H]. rewrite <- N.
  destruct ix as [[z|sl| |]|l]; cbn [index_items]; try discriminate N; try reflexivity; destruct sh; try discriminate; reflexivity.
Qed.

Lemma run_buf_write b p v h : run (buf_write_t b p v) h = buf_write b h p v.
Proof. unfold buf_write_t, buf_write. cbn [run]. change (hput h (baddr b) (boff b + p) v) with (buf_set h b p v). destruct (buf_set h b p v); reflexivity. Qed.

Lemma run_put {P} (wt : P -> pyval -> prog unit) (w : heap -> P -> pyval -> outcome) value n :
  (forall h p v, run (wt p v) h = w h p v) -> value_fits value n ->
  forall h x, length (fst x) = n -> run (put_t wt value x) h = put w value h x.
Proof.
  intros Hw F h x L. unfold put_t, put. apply (run_eval _ (fun h => get_value h value (fst x)) _ (fun h y => w h (snd x) y)).
  - eapply reads_value; eassumption.
  - intros. apply Hw.
Qed.

Lemma run_setitem : forall s ix value, fits s -> value_fits value (length (slice_shape ix (shape_of s))) ->
  forall h, run (setitem_t s ix value) h = setitem h s ix value.
Proof.
  assert (G : forall s ix value, fits s -> value_fits value (length (slice_shape ix (shape_of s))) ->
    match s with SCOO _ _ _ | SFlatCOO _ _ _ | SCSR _ _ _ _ | SC2SR _ _ _ _ _ _ => True | _ => False end ->
    forall h, run (setitem_t s ix value) h = setitem h s ix value).
  { intros s ix value F V C h.
    assert (X : forall nix sh st off, normalize_index ix (shape_of s) = Ok nix ->
      index_strided nix (shape_of s) (strides_of s) 0 = Ok (sh, st, off) -> forall d h,
      run (slice_gen_t (shape_of s) (sparse_gen_t s) sh st off (put_t (buf_write_t d) value)) h
      = slice_gen (shape_of s) (sparse_gen s) sh st off (put (buf_write d) value) h).
    { intros nix sh st off E1 E2 d h0. apply ties_slice; [eapply index_strided_lengths; exact E2|now apply ties_sparse|].
      apply run_put; [intros; apply run_buf_write|]. erewrite slice_dims; [exact V| |exact E1|exact E2].
      destruct s; try contradiction; apply make_strides_length. }
    destruct s; try contradiction; cbn [setitem_t setitem] in *;
      (destruct (normalize_index _ _) as [nix|]; cbn [bind pbind eval run]; [|reflexivity]);
      (destruct (index_strided _ _ _ _) as [[[sh' st] off]|] eqn:E2; cbn [bind pbind eval run]; [|reflexivity]);
      cbn [data_buffer bind pbind eval run]; apply (X _ _ _ _ eq_refl E2). }
  induction s as [b|t|sh ind d|sh fi d|sh cr co d|sh ch a b c d|sh rd rsh rs ro d IH]; intros ix value F V; try now apply G.
  - intros h. cbn [setitem_t setitem]. unfold buffer_setitem_t, buffer_setitem.
    destruct (buf_complete_index ix) as [[]|]; try reflexivity. destruct value; [apply run_buf_write|reflexivity].
  - intros h. cbn [setitem_t setitem fits shape_of] in *.
    destruct (normalize_index _ _) as [nix|] eqn:E1; cbn [bind pbind eval run]; [|reflexivity].
    destruct (index_strided _ _ _ _) as [[[sh' st] off]|] eqn:E2; cbn [bind pbind eval run]; [|reflexivity].
    apply ties_strided. apply run_put; [intros; apply run_buf_write|].
    erewrite slice_dims; [exact V| |exact E1|exact E2]. exact F.
  - intros h. cbn [setitem_t setitem fits shape_of] in *. destruct F as [F1 F2].
    destruct (normalize_index _ _) as [nix|] eqn:E1; cbn [bind pbind eval run]; [|reflexivity].
    destruct (index_strided _ _ _ _) as [[[sh' st] off]|] eqn:E2; cbn [bind pbind eval run]; [|reflexivity].
    apply ties_slice; [eapply index_strided_lengths; exact E2|apply ties_dm|].
    apply run_put; [intros; now apply IH|]. erewrite slice_dims; [exact V| |exact E1|exact E2]. apply make_strides_length.
Qed.

(** A statement whose arrays have the dimensions they should have, the value of an
    assignment those of the slice. *)
Definition op_fits (o : op) : Prop :=
  match o with
  | Read s i => fits s /\ length i = length (shape_of s)
  | Assign s ix value => fits s /\ value_fits value (length (slice_shape ix (shape_of s)))
  end.

Lemma run_thread : forall ops, Forall op_fits ops -> forall h, run (thread ops) h = perform h ops.
Proof.
  induction 1 as [|o ops Ho _ IH]; intros h; [reflexivity|]. destruct o as [s i|s ix value]; cbn [thread perform op_fits] in *; destruct Ho as [F L].
  - rewrite run_bind, run_get_elem by assumption. destruct (get_elem h s i); [|reflexivity]. rewrite run_bind, IH.
    destruct (perform h ops) as [h' [xs|e]]; reflexivity.
  - rewrite run_bind, run_setitem by assumption. destruct (setitem h s ix value) as [h' [u|e]]; [apply IH|reflexivity].
Qed.

(** * Together *)

(** The element of a list of [n] elements that Python means by [p]. *)
Definition norm (n p : Z) : Z := if p <? 0 then p + n else p.
Definition sizes (h : heap) (a : nat) : Z := match nth_error h a with Some l => zlen l | None => 0 end.

(** [p] in list [a] and [q] in list [b] are different elements. *)
Definition differ (n : nat -> Z) (a : nat) (p : Z) (b : nat) (q : Z) : Prop := a <> b \/ norm (n a) p <> norm (n a) q.

(** All accesses are of these kinds. *)
Fixpoint within {A} (R W : nat -> Z -> Prop) (m : prog A) : Prop :=
  match m with
  | Ret _ => True
  | Get a p k => R a p /\ forall v, within R W (k v)
  | Put a p _ k => W a p /\ within R W k
  end.

Lemma within_mono {A} (R W R' W' : nat -> Z -> Prop) (m : prog A) :
  (forall a p, R a p -> R' a p) -> (forall a p, W a p -> W' a p) -> within R W m -> within R' W' m.
Proof.
  intros HR HW. induction m as [r|a p k IH|a p v k IH]; cbn [within]; [auto| |]; intros [H1 H2]; split; auto.
Qed.
Lemma within_bind {A B} R W (m : prog A) (f : A -> prog B) : within R W m -> (forall x, within R W (f x)) -> within R W (pbind m f).
Proof.
  intros Hm Hf. induction m as [[x|e]|a p k IH|a p v k IH]; cbn [pbind within] in *; auto; destruct Hm; split; auto.
Qed.

Lemma pyget_norm {A} (l : list A) p : pyget l p = if norm (zlen l) p <? 0 then Raise IndexError else
  match nth_error l (Z.to_nat (norm (zlen l) p)) with Some x => Ok x | None => Raise IndexError end.
Proof. reflexivity. Qed.
Lemma pyset_norm {A} (l : list A) p v : pyset l p v = if (norm (zlen l) p <? 0) || (zlen l <=? norm (zlen l) p) then Raise IndexError
  else Ok (set_nth (Z.to_nat (norm (zlen l) p)) v l).
Proof. reflexivity. Qed.

Lemma set_nth_nth {A} (l : list A) : forall n m v, nth_error (set_nth n v l) m =
  if Nat.eqb n m then match nth_error l m with Some _ => Some v | None => None end else nth_error l m.
Proof.
  induction l as [|x l IH]; intros n m v.
  - destruct n, m; reflexivity || (cbn; destruct (Nat.eqb _ _); reflexivity).
  - destruct n, m; cbn; try reflexivity. apply IH.
Qed.
Lemma set_nth_swap {A} (l : list A) : forall n m v w, n <> m -> set_nth n v (set_nth m w l) = set_nth m w (set_nth n v l).
Proof.
  induction l as [|x l IH]; intros [|n] [|m] v w H; cbn; try reflexivity; try congruence. f_equal. apply IH. congruence.
Qed.
Lemma set_nth_over {A} (l : list A) : forall n v w, set_nth n v (set_nth n w l) = set_nth n v l.
Proof. induction l as [|x l IH]; intros [|n] v w; cbn; try reflexivity. f_equal. apply IH. Qed.

Lemma hput_ok h a p v h' : hput h a p v = Ok h' -> exists l, nth_error h a = Some l
  /\ 0 <= norm (zlen l) p < zlen l /\ h' = set_nth a (set_nth (Z.to_nat (norm (zlen l) p)) v l) h.
Proof.
  unfold hput, cell. destruct (nth_error h a) as [l|]; cbn [bind]; [|discriminate]. rewrite pyset_norm.
  destruct ((_ <? 0) || (_ <=? _)) eqn:E; cbn [bind]; [discriminate|]. intros H. injection H as <-. exists l. split; [reflexivity|].
  split; [lia|reflexivity].
Qed.
Lemma hput_of h a p v l : nth_error h a = Some l -> 0 <= norm (zlen l) p < zlen l ->
  hput h a p v = Ok (set_nth a (set_nth (Z.to_nat (norm (zlen l) p)) v l) h).
Proof.
  intros E H. unfold hput, cell. rewrite E. cbn [bind]. rewrite pyset_norm.
  destruct ((_ <? 0) || (_ <=? _)) eqn:X; [lia|reflexivity].
Qed.
Lemma hput_raise_sizes h h' a p v e : sizes h' a = sizes h a -> (nth_error h a = None <-> nth_error h' a = None) ->
  hput h a p v = Raise e -> hput h' a p v = Raise e.
Proof.
  unfold sizes, hput, cell. destruct (nth_error h a) as [l|], (nth_error h' a) as [l'|]; intros S N.
  - cbn [bind]. rewrite !pyset_norm, S. destruct ((_ <? 0) || (_ <=? _)); cbn [bind]; [auto|discriminate].
  - exfalso. destruct N as [_ N]. now specialize (N eq_refl).
  - exfalso. destruct N as [N _]. now specialize (N eq_refl).
  - auto.
Qed.

Lemma set_nth_zlen {A} n (v : A) l : zlen (set_nth n v l) = zlen l.
Proof. unfold zlen. now rewrite set_nth_length. Qed.

Lemma hput_sizes h a p v h' : hput h a p v = Ok h' -> forall b, sizes h' b = sizes h b.
Proof.
  intros H b. apply hput_ok in H as (l & E & _ & ->). unfold sizes. rewrite set_nth_nth. destruct (Nat.eqb_spec a b) as [<-|N]; [|reflexivity].
  rewrite E. apply set_nth_zlen.
Qed.
Lemma hput_same h a p v h' : hput h a p v = Ok h' -> forall b, nth_error h b = None <-> nth_error h' b = None.
Proof.
  intros H b. apply hput_ok in H as (l & E & _ & ->). rewrite set_nth_nth. destruct (Nat.eqb_spec a b) as [<-|N]; [|reflexivity].
  rewrite E. split; discriminate.
Qed.

(** A write is not seen by the read of another element. *)
Lemma hget_other h a p v h' b q : hput h a p v = Ok h' -> differ (sizes h) a p b q -> hget h' b q = hget h b q.
Proof.
  intros H D. apply hput_ok in H as (l & E & R & ->). unfold hget, cell. rewrite set_nth_nth.
  destruct (Nat.eqb_spec a b) as [<-|N]; [|reflexivity]. destruct D as [D|D]; [congruence|]. unfold sizes in D. rewrite E in D |- *.
  cbn [bind]. rewrite !pyget_norm, set_nth_zlen. destruct (norm (zlen l) q <? 0) eqn:X; [reflexivity|].
  rewrite set_nth_nth. destruct (Nat.eqb_spec (Z.to_nat (norm (zlen l) p)) (Z.to_nat (norm (zlen l) q))); [lia|reflexivity].
Qed.

(** Writes of different elements commute. *)
Lemma hput_commute h a p v h1 b q w h2 : hput h a p v = Ok h1 -> hput h b q w = Ok h2 -> differ (sizes h) a p b q ->
  exists h3, hput h1 b q w = Ok h3 /\ hput h2 a p v = Ok h3.
Proof.
  intros H1 H2 D. apply hput_ok in H1 as (l & E1 & R1 & ->). apply hput_ok in H2 as (l2 & E2 & R2 & ->).
  destruct (Nat.eq_dec a b) as [<-|N].
  - assert (l2 = l) as -> by congruence. destruct D as [D|D]; [congruence|]. unfold sizes in D. rewrite E1 in D.
    exists (set_nth a (set_nth (Z.to_nat (norm (zlen l) q)) w (set_nth (Z.to_nat (norm (zlen l) p)) v l)) h). split.
    + erewrite hput_of; [|rewrite set_nth_nth, Nat.eqb_refl, E1; reflexivity|rewrite set_nth_zlen; exact R2].
      rewrite set_nth_over, set_nth_zlen. reflexivity.
    + erewrite hput_of; [|rewrite set_nth_nth, Nat.eqb_refl, E1; reflexivity|rewrite set_nth_zlen; exact R1].
      rewrite set_nth_over, set_nth_zlen. rewrite set_nth_swap by lia. reflexivity.
  - exists (set_nth b (set_nth (Z.to_nat (norm (zlen l2) q)) w l2) (set_nth a (set_nth (Z.to_nat (norm (zlen l) p)) v l) h)). split.
    + apply hput_of; [|exact R2]. rewrite set_nth_nth. destruct (Nat.eqb_spec a b); [contradiction|exact E2].
    + rewrite set_nth_swap by congruence. apply hput_of; [|exact R1]. rewrite set_nth_nth. destruct (Nat.eqb_spec b a); [congruence|exact E1].
Qed.

(** A write commutes with a program that leaves the element alone. *)
Lemma put_run {A} (m : prog A) : forall h a p v h1,
  within (differ (sizes h) a p) (differ (sizes h) a p) m -> hput h a p v = Ok h1 ->
  exists h2, hput (fst (run m h)) a p v = Ok h2 /\ run m h1 = (h2, snd (run m h)).
Proof.
  induction m as [r|b q k IH|b q w k IH]; intros h a p v h1 Hw H; cbn [run within] in *.
  - exists h1. split; [exact H|reflexivity].
  - destruct Hw as [D Hw]. rewrite (hget_other _ _ _ _ _ _ _ H D). destruct (hget h b q) as [x|e].
    + eapply IH; [apply Hw|exact H].
    + exists h1. split; [exact H|reflexivity].
  - destruct Hw as [D Hw]. destruct (hput h b q w) as [h'|e] eqn:E.
    + destruct (hput_commute _ _ _ _ _ _ _ _ _ H E D) as (h3 & E1 & E2). rewrite E1.
      eapply IH; [|exact E2]. eapply within_mono; [| |exact Hw]; intros c r; unfold differ; now rewrite (hput_sizes _ _ _ _ _ E).
    + rewrite (hput_raise_sizes h h1 b q w e); [|now apply (hput_sizes _ _ _ _ _ H)|now apply (hput_same _ _ _ _ _ H)|exact E].
      exists h1. split; [exact H|reflexivity].
Qed.

(** A program that does not write an element leaves it alone. *)
Lemma get_run {A} (m : prog A) : forall h a p,
  within (fun _ _ => True) (fun b q => differ (sizes h) b q a p) m -> hget (fst (run m h)) a p = hget h a p.
Proof.
  induction m as [r|b q k IH|b q w k IH]; intros h a p Hw; cbn [run within] in *; [reflexivity| |].
  - destruct (hget h b q) as [x|e]; [apply IH, Hw|reflexivity].
  - destruct Hw as [D Hw]. destruct (hput h b q w) as [h'|e] eqn:E; [|reflexivity].
    rewrite IH; [now apply (hget_other _ _ _ _ _ _ _ E)|]. eapply within_mono; [| |exact Hw]; [auto|]. intros c r.
    unfold differ. now rewrite (hput_sizes _ _ _ _ _ E).
Qed.

Lemma run_sizes {A} (m : prog A) : forall h b, sizes (fst (run m h)) b = sizes h b /\ (nth_error (fst (run m h)) b = None <-> nth_error h b = None).
Proof.
  induction m as [r|a q k IH|a q w k IH]; intros h b; cbn [run].
  - split; reflexivity.
  - destruct (hget h a q); [apply IH|split; reflexivity].
  - destruct (hput h a q w) as [h'|] eqn:E; [|split; reflexivity]. destruct (IH h' b) as [I1 I2].
    rewrite I1, (hput_sizes _ _ _ _ _ E), I2. split; [reflexivity|]. symmetry. now apply (hput_same _ _ _ _ _ E).
Qed.

(** Threads one after the other. *)
Definition in_turn {A} (ts : list (prog A)) (h : heap) : heap := fold_left (fun h t => fst (run t h)) ts h.

(** The footprint of a thread: what it may read and what it may write. *)
Record footprint := FP { fr : nat -> Z -> Prop; fw : nat -> Z -> Prop }.
Definition apart (n : nat -> Z) (f g : footprint) : Prop :=
  forall a p b q, fw f a p -> fr g b q \/ fw g b q -> differ n a p b q.
Definition stays {A} (f : footprint) (m : prog A) : Prop := within (fr f) (fw f) m.

Lemma differ_sym n a p b q : differ n a p b q -> differ n b q a p.
Proof. intros [H|H]; [left; congruence|]. destruct (Nat.eq_dec a b) as [<-|N]; [right; congruence|left; congruence]. Qed.

Lemma advance_stays {A} f (m : prog A) h : stays f m -> stays f (snd (advance h m)).
Proof.
  destruct m as [r|a p k|a p v k]; cbn [advance]; intros H; [exact H| |].
  - destruct (hget h a p); [apply H|exact I].
  - destruct (hput h a p v); [apply H|exact I].
Qed.
Lemma advance_sizes {A} (m : prog A) h : forall b, sizes (fst (advance h m)) b = sizes h b.
Proof.
  destruct m as [r|a p k|a p v k]; cbn [advance]; intros b; try reflexivity.
  - destruct (hget h a p); reflexivity.
  - destruct (hput h a p v) eqn:E; [|reflexivity]. now apply (hput_sizes _ _ _ _ _ E).
Qed.
Lemma advance_run {A} (m : prog A) h : run (snd (advance h m)) (fst (advance h m)) = run m h.
Proof.
  destruct m as [r|a p k|a p v k]; cbn [advance]; [reflexivity| |].
  - cbn [run]. destruct (hget h a p); reflexivity.
  - cbn [run]. destruct (hput h a p v); reflexivity.
Qed.

Lemma differ_eq n n' a p b q : (forall c, n c = n' c) -> differ n a p b q -> differ n' a p b q.
Proof. unfold differ. intros E. now rewrite E. Qed.
Lemma apart_eq n n' f g : (forall c, n c = n' c) -> apart n f g -> apart n' f g.
Proof. intros E H a p b q H1 H2. eapply differ_eq; [exact E|]. now apply H. Qed.

(** One access of a thread commutes with another thread. *)
Lemma advance_other {A B} f g (m : prog A) (m' : prog B) h : stays f m -> stays g m' -> apart (sizes h) f g -> apart (sizes h) g f ->
  run m' (fst (advance h m)) = (fst (advance (fst (run m' h)) m), snd (run m' h))
  /\ snd (advance (fst (run m' h)) m) = snd (advance h m).
Proof.
  intros Hf Hg A1 A2. destruct m as [r|a p k|a p v k]; cbn [advance fst snd].
  - split; [now destruct (run m' h)|reflexivity].
  - destruct Hf as [Hf _]. assert (E : hget (fst (run m' h)) a p = hget h a p).
    { apply get_run. eapply within_mono; [| |exact Hg]; [auto|]. intros b q Hq. apply A2; auto. }
    rewrite E. destruct (hget h a p); cbn [fst snd]; (split; [now destruct (run m' h)|reflexivity]).
  - destruct Hf as [Hf _]. destruct (hput h a p v) as [h1|e] eqn:E; cbn [fst snd].
    + destruct (put_run m' h a p v h1) as (h2 & E1 & E2); [|exact E|].
      * eapply within_mono; [| |exact Hg]; intros b q Hq; apply A1; auto.
      * rewrite E1. cbn [fst snd]. split; [exact E2|reflexivity].
    + destruct (run_sizes m' h a) as [S1 S2]. rewrite (hput_raise_sizes h (fst (run m' h)) a p v e); [|exact S1|symmetry; exact S2|exact E].
      cbn [fst snd]. split; [now destruct (run m' h)|reflexivity].
Qed.

Lemma Forall2_nth {X Y} (P : X -> Y -> Prop) l l' : Forall2 P l l' -> forall n y, nth_error l' n = Some y ->
  exists x, nth_error l n = Some x /\ P x y.
Proof.
  induction 1 as [|x y l l' H _ IH]; intros [|n] z E; try discriminate.
  - injection E as <-. exists x. split; [reflexivity|exact H].
  - apply IH. exact E.
Qed.

Definition all_apart (n : nat -> Z) (fs : list footprint) : Prop :=
  forall j k f g, j <> k -> nth_error fs j = Some f -> nth_error fs k = Some g -> apart n f g.

Lemma in_turn_advance {A} : forall (ts : list (prog A)) fs h j t,
  Forall2 stays fs ts -> all_apart (sizes h) fs -> nth_error ts j = Some t ->
  in_turn (set_nth j (snd (advance h t)) ts) (fst (advance h t)) = in_turn ts h.
Proof.
  induction ts as [|u ts IH]; intros fs h j t HF HA Hj; [destruct j; discriminate|]. inversion HF as [|f u' fs' ts' Hf HF']; subst.
  destruct j as [|j]; cbn [nth_error set_nth] in *.
  - injection Hj as ->. unfold in_turn. cbn [fold_left]. now rewrite advance_run.
  - unfold in_turn. cbn [fold_left]. destruct (Forall2_nth _ _ _ HF' _ _ Hj) as (g & Eg & Hg).
    destruct (advance_other g f t u h Hg Hf) as [E1 E2].
    + eapply (HA (S j) 0%nat); [discriminate|exact Eg|reflexivity].
    + eapply (HA 0%nat (S j)); [discriminate|reflexivity|exact Eg].
    + rewrite E1. cbn [fst]. rewrite <- E2. apply (IH fs' _ j t HF'); [|exact Hj]. intros x y f1 f2 N X Y.
      eapply apart_eq; [|eapply (HA (S x) (S y)); [congruence|exact X|exact Y]]. intros c. symmetry. apply run_sizes.
Qed.

Lemma set_nth_self {X} (l : list X) : forall n x, nth_error l n = Some x -> set_nth n x l = l.
Proof. induction l as [|y l IH]; intros [|n] x H; cbn in *; try discriminate; [congruence|]. f_equal. now apply IH. Qed.
Lemma Forall2_len {X Y} (P : X -> Y -> Prop) l l' : Forall2 P l l' -> length l = length l'.
Proof. induction 1; cbn; congruence. Qed.
Lemma Forall2_set {X Y} (P : X -> Y -> Prop) l l' : Forall2 P l l' -> forall n y x, nth_error l n = Some x -> P x y -> Forall2 P l (set_nth n y l').
Proof.
  induction 1 as [|x0 y0 l l' H HF IH]; intros [|n] y x E Hp; try discriminate; cbn [set_nth].
  - injection E as ->. constructor; assumption.
  - constructor; [exact H|]. eapply IH; eassumption.
Qed.
Lemma Forall2_of_nth {X Y} (P : X -> Y -> Prop) : forall l l', length l = length l' ->
  (forall n x y, nth_error l n = Some x -> nth_error l' n = Some y -> P x y) -> Forall2 P l l'.
Proof.
  induction l as [|x l IH]; intros [|y l'] L H; try discriminate; constructor.
  - now apply (H 0%nat).
  - apply IH; [now injection L|]. intros n. apply (H (S n)).
Qed.

(** Whatever the schedule: running what is left of the threads one after the other
    gives the same heap and results as at the start. *)
Lemma exec_inv {A} : forall sched h (ts : list (prog A)) fs h' ts',
  Forall2 stays fs ts -> all_apart (sizes h) fs -> exec sched h ts = (h', ts') ->
  in_turn ts' h' = in_turn ts h /\ Forall2 (fun t t' => snd (run t' h') = snd (run t h)) ts ts'.
Proof.
  induction sched as [|j sched IH]; intros h ts fs h' ts' HF HA H; cbn [exec] in H.
  - injection H as <- <-. split; [reflexivity|]. clear. induction ts; constructor; auto.
  - destruct (nth_error ts j) as [t|] eqn:Ej; [|eapply IH; eassumption].
    destruct (advance h t) as [h1 t1] eqn:Ea. destruct (Forall2_nth _ _ _ HF _ _ Ej) as (f & Ef & Hf).
    assert (Hf1 : stays f t1) by (pose proof (advance_stays f t h Hf) as X; rewrite Ea in X; exact X).
    assert (Hs : forall b, sizes h b = sizes h1 b) by (intros b; pose proof (advance_sizes t h b) as X; rewrite Ea in X; symmetry; exact X).
    assert (HF1 : Forall2 stays fs (set_nth j t1 ts)) by (eapply Forall2_set; eassumption).
    assert (HA1 : all_apart (sizes h1) fs) by (intros x y f1 g1 N X Y; eapply apart_eq; [exact Hs|eapply HA; eassumption]).
    destruct (IH _ _ _ _ _ HF1 HA1 H) as [I1 I2]. split.
    + rewrite I1. pose proof (in_turn_advance ts fs h j t HF HA Ej) as X. rewrite Ea in X. exact X.
    + assert (L : length ts = length ts').
      { apply Forall2_len in I2. rewrite <- I2. symmetry. apply set_nth_length. }
      apply Forall2_of_nth; [exact L|]. intros k x y Ex Ey.
      destruct (Forall2_nth _ _ _ I2 _ _ Ey) as (z & Ez & Hz). rewrite Hz. rewrite set_nth_nth, Ex in Ez.
      destruct (Nat.eqb_spec j k) as [<-|N].
      * injection Ez as <-. assert (x = t) as -> by congruence. pose proof (advance_run t h) as X. rewrite Ea in X. cbn in X. now rewrite X.
      * injection Ez as <-. destruct (Forall2_nth _ _ _ HF _ _ Ex) as (g & Eg & Hg).
        destruct (advance_other f g t x h Hf Hg) as [E1 _]; [eapply HA; eassumption|eapply HA; [|exact Eg|exact Ef]; congruence|].
        rewrite Ea in E1. cbn [fst] in E1. now rewrite E1.
Qed.

(** * No schedule goes on for ever *)
Inductive pending {A} : prog A -> prog A -> Prop :=
| pend_get a p k v : pending (k v) (Get a p k)
| pend_get_raise a p k e : pending (Ret (Raise e)) (Get a p k)
| pend_put a p v k : pending k (Put a p v k)
| pend_put_raise a p v k e : pending (Ret (Raise e)) (Put a p v k).
Lemma pending_wf {A} : well_founded (@pending A).
Proof.
  assert (R : forall r, Acc pending (@Ret A r)) by (intros r; constructor; intros y H; inversion H).
  intros m. induction m as [r|a p k IH|a p v k IH]; [apply R| |]; constructor; intros y H; inversion H; subst; auto.
Qed.
Definition pending_list {A} (ts' ts : list (prog A)) : Prop :=
  exists j t t', nth_error ts j = Some t /\ pending t' t /\ ts' = set_nth j t' ts.
Lemma pending_list_wf {A} : well_founded (@pending_list A).
Proof.
  intros ts. induction ts as [|t ts IH].
  - constructor. intros y (j & t & t' & H & _). destruct j; discriminate.
  - revert ts IH. induction (pending_wf t) as [t _ IHt]. intros ts IHs. induction IHs as [ts Hts IHs].
    constructor. intros y (j & u & u' & Hj & Hp & ->). destruct j as [|j]; cbn [nth_error set_nth] in *.
    + injection Hj as ->. apply IHt; [exact Hp|constructor; exact Hts].
    + apply IHs. exists j, u, u'. auto.
Qed.
Lemma advance_pending {A} (m : prog A) h : (exists r, m = Ret r) \/ pending (snd (advance h m)) m.
Proof.
  destruct m as [r|a p k|a p v k]; cbn [advance]; [left; eauto| |]; right.
  - destruct (hget h a p); constructor.
  - destruct (hput h a p v); constructor.
Qed.

(** * Which lists a statement touches *)
Definition lists_of (value : source) : list nat := match value with SrcSeq _ => [] | SrcSto s => addrs s end.

Section Touches.
Variable R W : nat -> Z -> Prop.
Lemma w_ret {A} (r : res A) : within R W (Ret r).
Proof. exact I. Qed.
Lemma w_pre {A B} (r : res A) (f : A -> prog B) : (forall x, within R W (f x)) -> within R W (pbind (Ret r) f).
Proof. intros H. apply within_bind; [exact I|exact H]. Qed.
Lemma w_buf_get b i : (forall p, R (baddr b) p) -> within R W (buf_get_t b i).
Proof. intros H. split; [apply H|]. intros v. exact I. Qed.
Lemma w_buf_int b i : (forall p, R (baddr b) p) -> within R W (buf_int_t b i).
Proof. intros H. apply within_bind; [now apply w_buf_get|]. intros x. exact I. Qed.
Lemma w_strided_elem t ix : (forall p, R (baddr (sdata t)) p) -> within R W (strided_elem_t t ix).
Proof.
  intros H. apply w_pre. intros nix. destruct (is_element_index _ _); [|exact I]. apply w_pre. intros p. now apply w_buf_get.
Qed.
Lemma w_strided_int t ix : (forall p, R (baddr (sdata t)) p) -> within R W (strided_int_t t ix).
Proof. intros H. apply within_bind; [now apply w_strided_elem|]. intros x. exact I. Qed.
Lemma w_bsearch d : (forall p, within R W (d p)) -> forall fuel l r, within R W (bsearch_t fuel l r d).
Proof.
  intros H. induction fuel as [|f IH]; intros l r; cbn [bsearch_t]; [exact I|]. destruct (r <? l); [exact I|].
  apply within_bind; [apply H|]. intros c. destruct (c =? 0); [exact I|]. destruct (c <? 0); apply IH.
Qed.
Lemma w_position s ix : (forall a p, In a (index_addrs s) -> R a p) -> within R W (flat_data_position_t s ix).
Proof.
  intros H. destruct s; cbn [flat_data_position_t]; try exact I.
  - apply w_pre. intros x. exact I.
  - apply w_pre. intros n. apply w_bsearch. intros p. generalize (zseq (zlen shape)). intros js. induction js as [|j js IH]; cbn [coo_diff_t]; [exact I|].
    apply within_bind; [apply w_strided_int; intros q; apply H; left; reflexivity|]. intros v. apply w_pre. intros i.
    destruct (v - i =? 0); [exact IH|exact I].
  - apply w_pre. intros p. apply w_bsearch. intros q. apply within_bind; [apply w_buf_int; intros r; apply H; left; reflexivity|].
    intros x. exact I.
  - destruct ix as [|r [|c [|]]]; try exact I. cbn [get_csr_position_t].
    apply within_bind; [apply w_buf_int; intros p; apply H; left; reflexivity|]. intros a.
    apply within_bind; [apply w_buf_int; intros p; apply H; left; reflexivity|]. intros b.
    apply w_bsearch. intros q. apply within_bind; [apply w_buf_int; intros p; apply H; right; left; reflexivity|]. intros x. exact I.
Qed.
Lemma w_flat_elem s ix : (forall a p, In a (addrs s) -> R a p) -> within R W (flat_get_elem_t s ix).
Proof.
  intros H. apply within_bind; [apply w_position; intros a q Ha; apply H; now right|]. intros [p|]; [|exact I]. 
  destruct s; cbn [data_buffer pbind]; try exact I; apply w_buf_get; intros q; apply H; left; reflexivity.
Qed.
Lemma w_get_elem : forall s ix, (forall a p, In a (addrs s) -> R a p) -> within R W (get_elem_t s ix).
Proof.
  induction s as [b|t|sh ind d|sh fi d|sh cr co d|sh ch a b c d|sh rd rsh rs ro d IH]; intros ix H; cbn [get_elem_t].
  - destruct ix as [|i [|]]; try exact I. apply w_buf_get. intros p. apply H. left. reflexivity.
  - apply w_strided_elem. intros p. apply H. left. reflexivity.
  - apply w_pre. intros nix. destruct (is_element_index _ _); [now apply w_flat_elem|exact I].
  - apply w_pre. intros nix. destruct (is_element_index _ _); [now apply w_flat_elem|exact I].
  - apply w_pre. intros nix. destruct (is_element_index _ _); [now apply w_flat_elem|exact I].
  - apply w_pre. intros nix. destruct (is_element_index _ _); [now apply w_flat_elem|exact I].
  - apply w_pre. intros nix. destruct (is_element_index _ _); [|exact I]. apply w_pre. intros r. apply IH. exact H.
Qed.
Lemma w_value value ix : (forall a p, In a (lists_of value) -> R a p) -> within R W (get_value_t value ix).
Proof. intros H. destruct value; cbn [get_value_t]; [exact I|]. destruct ix; [exact I|]. now apply w_get_elem. Qed.

Lemma w_for {X} (l : list X) (bt : X -> prog unit) : (forall x, In x l -> within R W (bt x)) -> within R W (for_t l bt).
Proof.
  induction l as [|x l IH]; intros H; cbn [for_t]; [exact I|]. apply within_bind; [apply H; now left|]. intros _. apply IH. intros y Hy. apply H. now right.
Qed.
Lemma w_sparse_gen s bt : (forall a p, In a (addrs s) -> R a p) -> (forall x, within R W (bt x)) -> within R W (sparse_gen_t s bt).
Proof.
  intros H Hb. destruct s; cbn [sparse_gen_t]; try exact I.
  - apply w_pre. intros n. apply w_for. intros pos _. apply w_pre. intros rows. apply within_bind; [|intros ix; apply Hb].
    generalize (zseq rows). intros js. induction js as [|j js IH]; cbn [mapM_t]; [exact I|].
    apply within_bind; [apply w_strided_int; intros q; apply H; right; left; reflexivity|]. intros y.
    apply within_bind; [exact IH|]. intros ys. exact I.
  - apply w_pre. intros sd. apply w_for. intros pos _. apply within_bind; [apply w_buf_int; intros q; apply H; right; left; reflexivity|].
    intros f. apply w_pre. intros i. apply w_pre. intros ix. apply Hb.
  - apply w_pre. intros n. apply w_for. intros r _.
    apply within_bind; [apply w_buf_int; intros q; apply H; right; left; reflexivity|]. intros a.
    apply within_bind; [apply w_buf_int; intros q; apply H; right; left; reflexivity|]. intros b.
    apply w_for. intros pos _. apply within_bind; [apply w_buf_int; intros q; apply H; right; right; left; reflexivity|]. intros c. apply Hb.
Qed.
Lemma w_slice_gen {P} sh0 (G : generator_t (list Z * P)) sh st off bt : 
  (forall b, (forall x, within R W (b x)) -> within R W (G b)) -> (forall x, within R W (bt x)) ->
  within R W (slice_gen_t sh0 G sh st off bt).
Proof.
  intros HG Hb. apply w_pre. intros sd. apply HG. intros x. apply w_pre. intros sp. apply w_pre. intros [six|]; [apply Hb|exact I].
Qed.
Lemma w_put {P} (wt : P -> pyval -> prog unit) value x : (forall p v, within R W (wt p v)) ->
  (forall a p, In a (lists_of value) -> R a p) -> within R W (put_t wt value x).
Proof. intros H1 H2. apply within_bind; [now apply w_value|]. intros y. apply H1. Qed.
Lemma w_setitem : forall s ix value, (forall a p, In a (addrs s) -> R a p) -> (forall a p, In a (lists_of value) -> R a p) ->
  (forall p, W (data_addr s) p) -> within R W (setitem_t s ix value).
Proof.
  induction s as [b|t|sh ind d|sh fi d|sh cr co d|sh ch a b c d|sh rd rsh rs ro d IH]; intros ix value H1 H2 H3; cbn [setitem_t data_addr] in *.
  - unfold buffer_setitem_t. destruct (buf_complete_index ix) as [[]|]; try exact I. destruct value; [|exact I]. split; [apply H3|exact I].
  - apply w_pre. intros [[sh st] off]. apply w_for. intros i _. apply w_pre. intros p. apply w_put; [|exact H2]. intros. split; [apply H3|exact I].
  - destruct (bind _ _) as [[[[sh' st] off] d']|] eqn:E; cbn [pbind]; [|exact I].
    apply bind_ok in E as (nix & _ & E). apply bind_ok in E as ([[? ?] ?] & _ & E). cbn [data_buffer bind] in E. injection E as <- <- <- <-.
    apply w_slice_gen; [intros bt Hb; now apply w_sparse_gen|]. intros x. apply w_put; [|exact H2]. intros. split; [apply H3|exact I].
  - destruct (bind _ _) as [[[[sh' st] off] d']|] eqn:E; cbn [pbind]; [|exact I].
    apply bind_ok in E as (nix & _ & E). apply bind_ok in E as ([[? ?] ?] & _ & E). cbn [data_buffer bind] in E. injection E as <- <- <- <-.
    apply w_slice_gen; [intros bt Hb; now apply w_sparse_gen|]. intros x. apply w_put; [|exact H2]. intros. split; [apply H3|exact I].
  - destruct (bind _ _) as [[[[sh' st] off] d']|] eqn:E; cbn [pbind]; [|exact I].
    apply bind_ok in E as (nix & _ & E). apply bind_ok in E as ([[? ?] ?] & _ & E). cbn [data_buffer bind] in E. injection E as <- <- <- <-.
    apply w_slice_gen; [intros bt Hb; now apply w_sparse_gen|]. intros x. apply w_put; [|exact H2]. intros. split; [apply H3|exact I].
  - destruct (bind _ _) as [[[[sh' st] off] d']|] eqn:E; cbn [pbind]; [|exact I].
    apply bind_ok in E as (nix & _ & E). apply bind_ok in E as ([[? ?] ?] & _ & E). cbn [data_buffer bind] in E. injection E as <- <- <- <-.
    apply w_slice_gen; [intros bt Hb; now apply w_sparse_gen|]. intros x. apply w_put; [|exact H2]. intros. split; [apply H3|exact I].
  - apply w_pre. intros [[sh' st] off]. apply w_slice_gen.
    + intros bt Hb. apply w_for. intros i _. apply w_pre. intros r. apply Hb.
    + intros x. apply w_put; [|exact H2]. intros p v. apply IH; [exact H1|intros ? ? []|exact H3].
Qed.
End Touches.

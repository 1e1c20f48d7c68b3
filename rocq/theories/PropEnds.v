(** C111: every operation on arrays ends, whatever the arrays hold. *)
From Coq Require Import ZifyBool.
From Verif Require Import Py SliceTools Basics Storage Enumerate Nested.
From Coq Require Import List.

(** A call that ends: it returns or raises.  The loops of the binary searches run
    under a bound on their number of steps in the model, and [OutOfFuel] is the
    result of a loop that is still running when the bound is reached. *)
Definition ends {A} (m : res A) : Prop := m <> Raise OutOfFuel.

(** * Facts *)

Lemma ends_bind {A B} (m : res A) (f : A -> res B) : ends m -> (forall a, m = Ok a -> ends (f a)) -> ends (bind m f).
Proof. unfold ends. intros Hm Hf. destruct m as [a|e]; cbn [bind]; [now apply Hf|congruence]. Qed.
Lemma ends_mapM {A B} (f : A -> res B) l : (forall x, In x l -> ends (f x)) -> ends (mapM f l).
Proof.
  induction l as [|x r IH]; intros H; cbn [mapM]; [discriminate|].
  apply ends_bind; [apply H; now left|]. intros y _. apply ends_bind; [apply IH; intros z Hz; apply H; now right|]. discriminate.
Qed.
Create HintDb ends.
Ltac ends1 :=
  match goal with
  | |- ends (Ok _) => discriminate
  | |- ends (Raise _) => discriminate
  | |- ends (bind _ _) => apply ends_bind; [|intros ? _]
  | |- ends (mapM _ _) => apply ends_mapM; intros ? _
  | |- ends (let _ := _ in _) => cbv zeta
  | |- ends ((fun _ => _) _) => cbv beta
  | |- ends (match ?x with _ => _ end) => destruct x
  | _ => solve [auto with ends]
  end.
Ltac ends := repeat ends1.

Lemma e_assert b : ends (assert_ b). Proof. unfold assert_. ends. Qed.
Lemma e_pyget {A} l i : ends (@pyget A l i). Proof. unfold pyget. ends. Qed.
Lemma e_pydiv a b : ends (pydiv a b). Proof. unfold pydiv. ends. Qed.
Lemma e_pymod a b : ends (pymod a b). Proof. unfold pymod. ends. Qed.
Lemma e_cell h a : ends (cell h a). Proof. unfold cell. ends. Qed.
#[export] Hint Resolve e_assert e_pyget e_pydiv e_pymod e_cell : ends.
Lemma e_pyset {A} l i v : ends (@pyset A l i v). Proof. unfold pyset. ends. Qed.
Lemma e_nitems r : ends (nitems_r r). Proof. unfold nitems_r. ends. Qed.
#[export] Hint Resolve e_pyset e_nitems : ends.
Lemma e_shape_strided : forall ix sh, ends (shape_strided ix sh).
Proof. induction ix as [|[] ix IH]; intros [|n sh]; cbn [shape_strided]; ends; apply IH. Qed.
Lemma e_index_strided : forall ix sh st off, ends (index_strided ix sh st off).
Proof. induction ix as [|[] ix IH]; intros [|n sh] [|a st] off; cbn [index_strided]; ends; apply IH. Qed.
Lemma e_normalize_tuple : forall ix sh, ends (normalize_tuple ix sh).
Proof. induction ix as [|[] ix IH]; intros [|n sh]; cbn [normalize_tuple]; ends; apply IH. Qed.
#[export] Hint Resolve e_shape_strided e_index_strided e_normalize_tuple : ends.
Lemma e_normalize_index ix sh : ends (normalize_index ix sh). Proof. unfold normalize_index. ends. Qed.
Lemma e_init_dio_rec : forall r a, ends (init_dio_rec a r).
Proof. induction r as [|b r IH]; intros a; cbn [init_dio_rec]; ends; apply IH. Qed.
Lemma e_elim_steps : forall l A, ends (elim_steps l A).
Proof. induction l as [|i l IH]; intros A; cbn [elim_steps]; ends; try apply IH. unfold elim_step. ends. Qed.
#[export] Hint Resolve e_normalize_index e_init_dio_rec e_elim_steps : ends.
Lemma e_init_diophantine a sh : ends (init_diophantine a sh). Proof. unfold init_diophantine. ends. Qed.
Lemma e_in_shape : forall sh ix, ends (in_shape ix sh).
Proof. induction sh as [|n sh IH]; intros [|i ix]; cbn [in_shape]; ends; apply IH. Qed.
Lemma e_accum : forall zs k D b s dt ix, ends (accum k zs D b s dt ix).
Proof. induction zs as [|z zs IH]; intros k D b s dt ix; cbn [accum]; ends; apply IH. Qed.
#[export] Hint Resolve e_init_diophantine e_in_shape e_accum : ends.
Lemma e_try_dts k sd sh : forall dts, ends (try_dts k sd sh dts).
Proof. induction dts as [|dt r IH]; cbn [try_dts]; ends; apply IH. Qed.
#[export] Hint Resolve e_try_dts : ends.
Lemma e_solve_index_data p sh sd : ends (solve_index_data p sh sd). Proof. unfold solve_index_data. ends. Qed.
#[export] Hint Resolve e_solve_index_data : ends.
Lemma e_solve_index p sh st : ends (solve_index p sh st). Proof. unfold solve_index. ends. Qed.
#[export] Hint Resolve e_solve_index : ends.

(** gcs_basics *)
Lemma e_fill : forall n c k v, ends (fill n c k v).
Proof. induction n as [|n IH]; intros c k v; cbn [fill]; ends; apply IH. Qed.
#[export] Hint Resolve e_fill : ends.
Lemma e_compress_loop : forall l i c k la, ends (compress_loop l i c k la).
Proof. induction l as [|x l IH]; intros i c k la; cbn [compress_loop]; ends; apply IH. Qed.
#[export] Hint Resolve e_compress_loop : ends.
Lemma e_compress_indices l n : ends (compress_indices l n). Proof. unfold compress_indices. ends. Qed.
#[export] Hint Resolve e_compress_indices : ends.

(** storage.py: lookups *)
Lemma e_seq_get : forall ix v, ends (seq_get v ix).
Proof. induction ix as [|i ix IH]; intros []; cbn [seq_get]; ends; apply IH. Qed.
#[export] Hint Resolve e_seq_get : ends.
Lemma e_seq_value v ix : ends (seq_value v ix). Proof. unfold seq_value. ends. Qed.
Lemma e_get_rposition ix : forall st sh am, ends (get_rposition ix st sh am).
Proof. induction st as [|n st IH]; intros sh am; cbn [get_rposition]; ends; apply IH. Qed.
#[export] Hint Resolve e_seq_value e_get_rposition : ends.
Lemma e_reduce_index ix : forall rsh rd rs ro, ends (reduce_index rsh rd rs ro ix).
Proof. induction rsh as [|n sh IH]; intros rd rs ro; cbn [reduce_index]; ends; apply IH. Qed.
Lemma e_promotion_loop : forall sh r d st ix, ends (promotion_loop r d st sh ix).
Proof. intros sh r d. revert sh r. induction d as [|x d IH]; intros sh r st ix; cbn [promotion_loop]; ends; apply IH. Qed.
#[export] Hint Resolve e_reduce_index e_promotion_loop : ends.
Lemma e_promote_groups : forall rsh rd rs ro ri ix, ends (promote_groups rsh rd rs ro ri ix).
Proof. induction rsh as [|n sh IH]; intros rd rs ro ri ix; cbn [promote_groups]; ends; apply IH. Qed.
Lemma e_all_some : forall l, ends (all_some l).
Proof. induction l as [|[] l IH]; cbn [all_some]; ends; apply IH. Qed.
#[export] Hint Resolve e_promote_groups e_all_some : ends.
Lemma e_promote_index rsh rd rs ro ri : ends (promote_index rsh rd rs ro ri). Proof. unfold promote_index. ends. Qed.
Lemma e_get_position : forall ix sh st, ends (get_position ix sh st).
Proof. induction ix as [|i ix IH]; intros sh st; cbn [get_position]; ends; apply IH. Qed.
#[export] Hint Resolve e_promote_index e_get_position : ends.
Lemma e_mk_buffer h n o a u : ends (mk_buffer h n o a u). Proof. unfold mk_buffer. ends. Qed.
#[export] Hint Resolve e_mk_buffer : ends.
Lemma e_new_buffer h l u : ends (new_buffer h l u). Proof. unfold new_buffer, alloc. ends. Qed.
Lemma e_buf_get h b i : ends (buf_get h b i). Proof. unfold buf_get. ends. Qed.
Lemma e_buf_set h b i v : ends (buf_set h b i v). Proof. unfold buf_set. ends. Qed.
Lemma e_buf_slice h b s : ends (buf_slice h b s). Proof. unfold buf_slice. ends. Qed.
#[export] Hint Resolve e_new_buffer e_buf_get e_buf_set e_buf_slice : ends.
Lemma e_buf_complete_index ix : ends (buf_complete_index ix). Proof. unfold buf_complete_index. ends. Qed.
#[export] Hint Resolve e_buf_complete_index : ends.
Lemma e_buffer_getitem h b ix : ends (buffer_getitem h b ix). Proof. unfold buffer_getitem. ends. Qed.
Lemma e_mk_strided sh st b : ends (mk_strided sh st b). Proof. unfold mk_strided. ends. Qed.
#[export] Hint Resolve e_buffer_getitem e_mk_strided : ends.
Lemma e_strided_getitem h t ix : ends (strided_getitem h t ix). Proof. unfold strided_getitem. ends. Qed.
Lemma e_as_int v : ends (as_int v). Proof. unfold as_int. ends. Qed.
Lemma e_item_val v : ends (item_val v). Proof. unfold item_val. ends. Qed.
#[export] Hint Resolve e_strided_getitem e_as_int e_item_val : ends.
Lemma e_strided_int h t ix : ends (strided_int h t ix). Proof. unfold strided_int. ends. Qed.
Lemma e_buf_int h b i : ends (buf_int h b i). Proof. unfold buf_int. ends. Qed.
#[export] Hint Resolve e_strided_int e_buf_int : ends.

(** The loop of the binary searches: the distance of the bounds decreases in
    every step, whatever the comparisons say. *)
Lemma e_bsearch (d : Z -> res Z) : (forall p, ends (d p)) ->
  forall n l r, (Z.to_nat (r - l + 1) < n)%nat -> ends (bsearch n l r d).
Proof.
  intros Hd. induction n as [|n IH]; intros l r Hn; cbn [bsearch].
  - lia.
  - destruct (r <? l) eqn:E; [discriminate|]. cbv zeta. apply ends_bind; [apply Hd|]. intros c _.
    assert (B : l <= (l + r) / 2 <= r) by (split; [apply Z.div_le_lower_bound|apply Z.div_le_upper_bound]; lia).
    destruct (c =? 0); [discriminate|]. destruct (c <? 0); apply IH; lia.
Qed.
Lemma e_search (d : Z -> res Z) l r : (forall p, ends (d p)) -> ends (bsearch (search_fuel l r) l r d).
Proof. intros Hd. apply e_bsearch; [exact Hd|]. unfold search_fuel. lia. Qed.
Lemma e_coo_diff h t pos ix : forall js, ends (coo_diff h t pos js ix).
Proof. induction js as [|j js IH]; cbn [coo_diff]; ends; apply IH. Qed.
#[export] Hint Resolve e_coo_diff : ends.
Lemma e_get_coo_position h ix sh ind : ends (get_coo_position h ix sh ind).
Proof. unfold get_coo_position. ends. apply e_search. ends. Qed.
Lemma e_get_flatcoo_position h f b : ends (get_flatcoo_position h f b).
Proof. unfold get_flatcoo_position. ends. apply e_search. intros. ends. Qed.
Lemma e_get_csr_position h ix a b : ends (get_csr_position h ix a b).
Proof. unfold get_csr_position. ends. apply e_search. intros. ends. Qed.
#[export] Hint Resolve e_get_coo_position e_get_flatcoo_position e_get_csr_position : ends.
Lemma e_flat_data_position h s ix : ends (flat_data_position h s ix). Proof. unfold flat_data_position. ends. Qed.
Lemma e_data_buffer s : ends (data_buffer s). Proof. unfold data_buffer. ends. Qed.
#[export] Hint Resolve e_flat_data_position e_data_buffer : ends.
Lemma e_flat_get_elem h s ix : ends (flat_get_elem h s ix). Proof. unfold flat_get_elem. ends. Qed.
#[export] Hint Resolve e_flat_get_elem : ends.
Lemma e_flat_read h s ix : ends (flat_read h s ix). Proof. unfold flat_read. ends. Qed.
#[export] Hint Resolve e_flat_read : ends.

(** storage.py: construction *)
Lemma e_collect get su u : (forall i, ends (get i)) -> forall l, ends (collect get su u l).
Proof. intros Hg. induction l as [|i l IH]; cbn [collect]; ends; try apply IH; apply Hg. Qed.
Lemma e_buffer_build get sh su u h : (forall i, ends (get i)) -> ends (buffer_build get sh su u h).
Proof. intros Hg. unfold buffer_build. ends. now apply e_collect. Qed.
#[export] Hint Resolve e_collect e_buffer_build : ends.
Lemma e_strided_build get sh su u h : (forall i, ends (get i)) -> ends (strided_build get sh su u h).
Proof. intros Hg. unfold strided_build. ends. Qed.
#[export] Hint Resolve e_strided_build : ends.
Lemma e_buffer_of_seq v h : ends (buffer_of_seq v h). Proof. unfold buffer_of_seq. ends. Qed.
Lemma e_strided_of_seq v h : ends (strided_of_seq v h). Proof. unfold strided_of_seq. ends. Qed.
Lemma e_mk_coo sh i d : ends (mk_coo sh i d). Proof. unfold mk_coo. ends. Qed.
Lemma e_mk_flatcoo sh i d : ends (mk_flatcoo sh i d). Proof. unfold mk_flatcoo. ends. Qed.
Lemma e_mk_csr sh i c d : ends (mk_csr sh i c d). Proof. unfold mk_csr. ends. Qed.
#[export] Hint Resolve e_buffer_of_seq e_strided_of_seq e_mk_coo e_mk_flatcoo e_mk_csr : ends.
Lemma e_coo_build get sh su u h : (forall i, ends (get i)) -> ends (coo_build get sh su u h).
Proof. intros Hg. unfold coo_build. ends. Qed.
Lemma e_flatcoo_build get sh su u h : (forall i, ends (get i)) -> ends (flatcoo_build get sh su u h).
Proof. intros Hg. unfold flatcoo_build. ends. Qed.
Lemma e_buf_copy h b u : ends (buf_copy h b u). Proof. unfold buf_copy. ends. Qed.
#[export] Hint Resolve e_coo_build e_flatcoo_build e_buf_copy : ends.
Lemma e_strided_iad t : ends (strided_iad t). Proof. unfold strided_iad. ends. Qed.
Lemma e_strided_slice_iad sh st o : ends (strided_slice_iad sh st o). Proof. unfold strided_slice_iad. ends. Qed.
#[export] Hint Resolve e_strided_iad e_strided_slice_iad : ends.
Lemma e_strided_elements h t : ends (strided_elements h t). Proof. unfold strided_elements. ends. Qed.
#[export] Hint Resolve e_strided_elements : ends.
Lemma e_strided_set_elem h t ix v : ends (strided_set_elem h t ix v).
Proof.
  unfold strided_set_elem. ends. match goal with |- ends (_ ?l h) => revert h; induction l as [|[? ?] ? IH] end; intros h; ends; apply IH.
Qed.
#[export] Hint Resolve e_strided_set_elem : ends.
Lemma e_strided_copy h t u : ends (strided_copy h t u).
Proof.
  unfold strided_copy, alloc. ends.
  match goal with |- ends (_ ?l ?g) => generalize g; induction l as [|[? ?] ? IH] end; intros g; ends; apply IH.
Qed.
#[export] Hint Resolve e_strided_copy : ends.

(** storage.py: enumeration and slices *)
Lemma e_coo_iad h ind : ends (coo_iad h ind). Proof. unfold coo_iad. ends. Qed.
Lemma e_flatcoo_iad h sh f : ends (flatcoo_iad h sh f). Proof. unfold flatcoo_iad. ends. Qed.
Lemma e_csr_iad_rows h crow col : forall l, ends (csr_iad_rows h crow col l).
Proof. induction l as [|r l IH]; cbn [csr_iad_rows]; ends; apply IH. Qed.
#[export] Hint Resolve e_coo_iad e_flatcoo_iad e_csr_iad_rows : ends.
Lemma e_csr_iad h sh crow col : ends (csr_iad h sh crow col). Proof. unfold csr_iad. ends. Qed.
#[export] Hint Resolve e_csr_iad : ends.
Lemma e_sparse_iad h s : ends (sparse_iad h s). Proof. unfold sparse_iad. ends. Qed.
Lemma e_slice_iad_loop {P} sh0 st0 sh sd off : forall l, ends (@slice_iad_loop P sh0 st0 sh sd off l).
Proof. induction l as [|[i p] l IH]; cbn [slice_iad_loop]; ends; apply IH. Qed.
#[export] Hint Resolve e_sparse_iad e_slice_iad_loop : ends.
Lemma e_slice_iad {P} sh0 iad sh st off : ends iad -> ends (@slice_iad P sh0 iad sh st off).
Proof. intros H. unfold slice_iad. ends. Qed.
Lemma e_slice_values h d l : ends (slice_values h d l). Proof. unfold slice_values. ends. Qed.
#[export] Hint Resolve e_slice_iad e_slice_values : ends.
Lemma e_coo_get_slice h s d sh st off : ends (coo_get_slice h s d sh st off). Proof. unfold coo_get_slice, alloc. ends. Qed.
Lemma e_flatcoo_get_slice h s d sh st off : ends (flatcoo_get_slice h s d sh st off). Proof. unfold flatcoo_get_slice. ends. Qed.
#[export] Hint Resolve e_coo_get_slice e_flatcoo_get_slice : ends.
Lemma e_csr_get_slice h s d sh st off : ends (csr_get_slice h s d sh st off). Proof. unfold csr_get_slice. ends. Qed.
#[export] Hint Resolve e_csr_get_slice : ends.
Lemma e_mk_dm sh rd rs ro d : ends (mk_dm sh rd rs ro d). Proof. unfold mk_dm, make_reduction. ends. Qed.
Lemma e_kept_axes am : forall l, ends (kept_axes am l).
Proof. induction l as [|a l IH]; cbn [kept_axes]; ends; apply IH. Qed.
#[export] Hint Resolve e_mk_dm e_kept_axes : ends.
Lemma e_dm_slice_groups ix am : forall rd rsh rs ro, ends (dm_slice_groups ix am rd rsh rs ro).
Proof. induction rd as [|d rd IH]; intros rsh rs ro; cbn [dm_slice_groups]; ends; apply IH. Qed.
#[export] Hint Resolve e_dm_slice_groups : ends.

Lemma e_getitem h : forall s ix, ends (getitem h s ix).
Proof. induction s; intros ix; cbn [getitem]; ends; auto. Qed.
#[export] Hint Resolve e_getitem : ends.
Lemma e_get_elem h s ix : ends (get_elem h s ix). Proof. unfold get_elem. ends. Qed.
#[export] Hint Resolve e_get_elem : ends.
Lemma e_get_value h src ix : ends (get_value h src ix). Proof. unfold get_value. ends. Qed.
#[export] Hint Resolve e_get_value : ends.

(** The functions a caller may pass as get_storage_index must end themselves. *)
Definition args_end (a : fo_args) : Prop := forall f, fo_gsi a = Some f -> forall i, ends (f i).
Lemma e_fo_get h src a : args_end a -> forall i, ends (fo_get h src a i).
Proof. intros Ha i. unfold fo_get. destruct (fo_gsi a) eqn:E; ends. Qed.
#[export] Hint Resolve e_fo_get : ends.
Lemma e_buffer_fromobject h src a : args_end a -> ends (buffer_fromobject h src a).
Proof. intros Ha. unfold buffer_fromobject. ends. Qed.
Lemma e_strided_fromobject h src a : args_end a -> ends (strided_fromobject h src a).
Proof. intros Ha. unfold strided_fromobject. ends. Qed.
Lemma e_coo_of_flatcoo h sh f d : ends (coo_of_flatcoo h sh f d). Proof. unfold coo_of_flatcoo. ends. Qed.
Lemma e_flatcoo_of_coo h sh f d : ends (flatcoo_of_coo h sh f d). Proof. unfold flatcoo_of_coo. ends. Qed.
#[export] Hint Resolve e_buffer_fromobject e_strided_fromobject e_coo_of_flatcoo e_flatcoo_of_coo : ends.
Lemma e_coo_fromobject h src a : args_end a -> ends (coo_fromobject h src a).
Proof. intros Ha. unfold coo_fromobject. ends. Qed.
Lemma e_flatcoo_fromobject h src a : args_end a -> ends (flatcoo_fromobject h src a).
Proof. intros Ha. unfold flatcoo_fromobject. ends. Qed.
Lemma e_strided_row h t j : ends (strided_row h t j). Proof. unfold strided_row. ends. Qed.
Lemma args_default : args_end fo_default. Proof. intros f [=]. Qed.
Lemma args_unspecified u : args_end (fo_unspecified u). Proof. intros f [=]. Qed.
#[export] Hint Resolve e_coo_fromobject e_flatcoo_fromobject e_strided_row args_default args_unspecified : ends.
Lemma e_csr_of_coo h sh i d : ends (csr_of_coo h sh i d). Proof. unfold csr_of_coo. ends. Qed.
#[export] Hint Resolve e_csr_of_coo : ends.
Lemma e_csr_fromobject h src a : args_end a -> ends (csr_fromobject h src a).
Proof. intros Ha. unfold csr_fromobject. ends. Qed.
#[export] Hint Resolve e_csr_fromobject : ends.
Lemma e_flat_fromobject c h src a : args_end a -> ends (flat_fromobject c h src a).
Proof. intros Ha. unfold flat_fromobject. ends. Qed.
#[export] Hint Resolve e_flat_fromobject : ends.
Lemma e_dm_gen b fo h src a ds p : (forall h src a, args_end a -> ends (fo h src a)) -> args_end a ->
  ends (dm_fromobject_gen b fo h src a ds p).
Proof.
  intros Hf Ha. unfold dm_fromobject_gen, make_reduction. ends. apply Hf. intros f [= <-] i. apply ends_bind; [ends|].
  intros j _. destruct (fo_gsi a) as [g|] eqn:E; [exact (Ha g E j)|discriminate].
Qed.
Lemma e_dm_fromobject h src a ds p c : args_end a -> ends (dm_fromobject h src a ds p c).
Proof.
  intros Ha. unfold dm_fromobject. destruct c; apply e_dm_gen; auto with ends. intros. apply e_dm_gen; auto with ends.
Qed.
#[export] Hint Resolve e_dm_fromobject : ends.
Lemma e_copy h u : forall s, ends (copy h s u).
Proof. induction s; cbn [copy]; ends; auto. Qed.
Lemma e_buf_eq h a b : ends (buf_eq h a b). Proof. unfold buf_eq. ends. Qed.
#[export] Hint Resolve e_copy e_buf_eq : ends.
Lemma e_strided_eq h a b : ends (strided_eq h a b). Proof. unfold strided_eq. ends. Qed.
#[export] Hint Resolve e_strided_eq : ends.
Lemma e_andM a b : ends a -> ends b -> ends (andM a b). Proof. intros. unfold andM. ends. Qed.
#[export] Hint Resolve e_andM : ends.
Lemma e_storage_eq h : forall s t, ends (storage_eq h s t).
Proof. induction s; intros []; cbn [storage_eq]; ends; auto. Qed.
Lemma e_dm_iad sh rd rsh rs ro : ends (dm_iad sh rd rsh rs ro). Proof. unfold dm_iad. ends. Qed.
#[export] Hint Resolve e_storage_eq e_dm_iad : ends.
Lemma e_elements h s : ends (elements h s). Proof. unfold elements. ends. Qed.
#[export] Hint Resolve e_elements : ends.
Lemma e_equal h s o : ends (equal h s o). Proof. unfold equal. ends. Qed.

(** Assignment. *)
Definition stops (o : outcome) : Prop := ends (snd o).
Lemma s_each {X} (body : heap -> X -> outcome) : (forall h x, stops (body h x)) -> forall l h, stops (for_each l body h).
Proof.
  intros Hb. induction l as [|x l IH]; intros h; cbn [for_each]; [discriminate|].
  specialize (Hb h x). destruct (body h x) as [h' [[]|e]]; [apply IH|exact Hb].
Qed.
Lemma s_eval {A} h (m : res A) k : ends m -> (forall x, stops (k x)) -> stops (eval h m k).
Proof. intros Hm Hk. unfold eval. destruct m; [apply Hk|]. unfold stops, ends in *. cbn. congruence. Qed.
Lemma s_buf_write b h p v : stops (buf_write b h p v).
Proof. unfold buf_write, stops. pose proof (e_buf_set h b p v) as E. destruct (buf_set h b p v); [discriminate|]. unfold ends in *. cbn. congruence. Qed.
Definition safe_gen {X} (g : generator X) : Prop := forall body h, (forall h x, stops (body h x)) -> stops (g body h).
Lemma s_strided_gen sh st off : safe_gen (strided_slice_gen sh st off).
Proof. intros body h Hb. apply s_each. intros. apply s_eval; [ends|]. intros. apply Hb. Qed.
Lemma s_sparse_gen s : safe_gen (sparse_gen s).
Proof.
  intros body h Hb. destruct s; try (discriminate);
    cbn [sparse_gen]; unfold coo_gen, flatcoo_gen, csr_gen;
    (apply s_eval; [ends|]); intros; apply s_each; intros; (apply s_eval; [ends|]); intros; try apply Hb.
  apply s_each. intros. apply s_eval; [ends|]. intros. apply Hb.
Qed.
Lemma s_dm_gen sh rd rsh rs ro : safe_gen (dm_gen sh rd rsh rs ro).
Proof. intros body h Hb. apply s_each. intros. apply s_eval; [ends|]. intros. apply Hb. Qed.
Lemma s_slice_gen {P} sh0 (g : generator (list Z * P)) sh st off : safe_gen g -> safe_gen (slice_gen sh0 g sh st off).
Proof.
  intros Hg body h Hb. apply s_eval; [ends|]. intros sd. apply Hg. intros. apply s_eval; [ends|].
  intros [six|]; [apply Hb|discriminate].
Qed.
Lemma s_put {P} (w : heap -> P -> pyval -> outcome) v : (forall h p x, stops (w h p x)) -> forall h i, stops (put w v h i).
Proof. intros Hw h i. apply s_eval; [ends|]. intros. apply Hw. Qed.
Lemma s_setitem : forall s h ix v, stops (setitem h s ix v).
Proof.
  assert (G : forall s h ix v, (forall b, s <> SBuffer b) -> (forall t, s <> SStrided t) ->
    (forall a b c d e f, s <> SDM a b c d e f) -> stops (setitem h s ix v)).
  { intros s h ix v N1 N2 N3. destruct s; try congruence; cbn [setitem]; (apply s_eval; [ends|]); intros [[[sh' st] off] d];
      apply s_slice_gen; try apply s_sparse_gen; intros; apply s_put; intros; apply s_buf_write. }
  induction s as [b|t| | | | |sh rd rsh rs ro d IH]; intros h ix v; try (apply G; congruence).
  - cbn [setitem]. unfold buffer_setitem, stops. pose proof (e_buf_complete_index ix) as E.
    destruct (buf_complete_index ix) as [[]|]; try discriminate; [|unfold ends in *; cbn; congruence].
    destruct v; [apply s_buf_write|discriminate].
  - cbn [setitem]. apply s_eval; [ends|]. intros [[sh st] off]. apply s_strided_gen. intros. apply s_put. intros. apply s_buf_write.
  - cbn [setitem]. apply s_eval; [ends|]. intros [[sh' st] off]. apply s_slice_gen; [apply s_dm_gen|]. intros. apply s_put. intros. apply IH.
Qed.

(** * C111 *)

(** Nothing is assumed of the arrays: their index lists may be unsorted, hold
    duplicates, numbers out of range or other objects, or have any length. *)
Theorem C111_lookups : forall h index shape indices findex findices crow col,
  ends (get_coo_position h index shape indices) /\ ends (get_flatcoo_position h findex findices)
  /\ ends (get_csr_position h index crow col).
Proof. intros. split; [|split]; auto with ends. Qed.
Print Assumptions C111_lookups.

Theorem C111_reads : forall h s, (forall ix, ends (getitem h s ix)) /\ ends (elements h s)
  /\ (forall t, ends (storage_eq h s t)) /\ (forall other, ends (equal h s other)).
Proof. intros h s. repeat split; intros; auto using e_equal with ends. Qed.
Print Assumptions C111_reads.

Theorem C111_writes : forall h s ix value, ends (snd (setitem h s ix value)).
Proof. intros h s ix value. apply s_setitem. Qed.
Print Assumptions C111_writes.

(** Conversions: [a] may hold a function of the caller's that maps indices, which
    must end itself. *)
Theorem C111_conversions : forall h,
  (forall c src a, args_end a -> ends (fromobject c h src a))
  /\ (forall c s u, ends (as_storage c h s u))
  /\ (forall s u, ends (copy h s u))
  /\ (forall s dims part c u, ends (as_DM h s dims part c u)).
Proof.
  intros h. split; [|split; [|split]].
  - intros c src a Ha. unfold fromobject. destruct c; auto with ends.
  - intros c s u. unfold as_storage. destruct c; auto with ends; apply e_dm_fromobject; intros f [=].
  - auto with ends.
  - intros s dims part c u. unfold as_DM. apply e_dm_fromobject. intros f [=].
Qed.
Print Assumptions C111_conversions.

(** A FlatCOO whose positions are not sorted and a CSR whose row pointers
    decrease: the searches end, one of them without finding what is stored. *)
Example C111_case :
  let h := [map VInt [5; 2; 0]; map VInt [10; 20; 30]; map VInt [3; 0; 1]; map VInt [2; 0; 1]] in
  let f := SFlatCOO [2; 3] (Buf 3 0 0 VNone) (Buf 3 0 1 (VInt 0)) in
  let c := SCSR [2; 3] (Buf 3 0 2 VNone) (Buf 3 0 3 VNone) (Buf 3 0 1 (VInt 0)) in
  get_elem h f [0; 2] = Ok (VInt 20) /\ get_elem h f [1; 2] = Ok (VInt 0)
  /\ get_elem h c [0; 0] = Ok (VInt 0) /\ get_elem h c [1; 2] = Ok (VInt 10).
Proof. repeat split; vm_compute; reflexivity. Qed.

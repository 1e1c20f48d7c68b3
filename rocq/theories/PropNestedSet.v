(** C84: assigning a list that contains arrays. *)
From Coq Require Import Sorting.Sorted Permutation ZifyBool.
From Verif Require Import Py SliceTools Basics Storage Nested Spec SliceFacts IndexFacts
  CompressFacts ReduceFacts SolverFacts SolveFacts Repr ReprFacts ViewFacts BuildFacts SparseFacts
  ConvFacts FromFacts DMFacts ReadFacts MapFacts ChainFacts ChainDM WriteFacts AliasFacts PropRead PropChain PropNested.

(** * Facts *)

Lemma one_by_one_frame a h h' t : updated a h h' -> ~ In a (addrs t) -> one_by_one h t -> one_by_one h' t.
Proof.
  intros Hu Hn H.
  assert (V : valid h t -> valid h' t).
  { intros [f Hf]. exists f. eapply repr_frame; [|exact Hf]. intros b Hb. apply (up_other _ _ _ Hu). congruence. }
  destruct H as [b Hv|s Hv Hne Hs|h0 h1 sh rd rsh rs ro data Hb Hnd Hv Hst].
  - apply obo_buffer; auto.
  - apply obo_plain; auto.
  - eapply obo_dm; eauto.
Qed.

Lemma arrays_impl (P Q : storage -> Prop) q : (forall s, P s -> Q s) -> arrays P q -> arrays Q q.
Proof.
  intros H. induction q as [w|s|l IH] using nested_ind'; intros Ha; [exact I|apply H, Ha|].
  apply arrays_seq in Ha. apply arrays_seq. rewrite Forall_forall in *. auto.
Qed.
Lemma arrays_and (P Q : storage -> Prop) q : arrays P q -> arrays Q q -> arrays (fun s => P s /\ Q s) q.
Proof.
  induction q as [w|s|l IH] using nested_ind'; intros Ha Hb; [exact I|split; assumption|].
  apply arrays_seq in Ha, Hb. apply arrays_seq. rewrite Forall_forall in *. auto.
Qed.

Lemma listed_frame a h h' q : updated a h h' -> arrays (fun t => ~ In a (addrs t)) q -> forall v, listed h q v -> listed h' q v.
Proof.
  intros Hu. induction q as [w|s|l IH] using nested_ind'; intros Ha v Hl; [exact Hl| |].
  - cbn [listed arrays] in *. destruct Hl as [H1 H2]. split; [exact H1|]. intros i Hi. destruct (H2 i Hi) as (x & E & G).
    exists x. split; [exact E|]. eapply get_elem_frame; [|exact G]. intros b Hb. apply (up_other _ _ _ Hu). congruence.
  - apply listed_seq in Hl. destruct Hl as (vs & -> & Hl). apply arrays_seq in Ha. apply listed_seq. exists vs.
    split; [reflexivity|]. induction Hl as [|x y l vs H1 H2 IHl]; constructor.
    + inversion IH; inversion Ha; subst. auto.
    + inversion IH; inversion Ha; subst. auto.
Qed.

Lemma for_each_agree {X} a h (b1 b2 : heap -> X -> outcome) : framed a b1 ->
  forall l, (forall h' x, updated a h h' -> In x l -> b1 h' x = b2 h' x) ->
  forall h', updated a h h' -> for_each l b1 h' = for_each l b2 h'.
Proof.
  intros Hf. induction l as [|x l IH]; intros H h' Hu; cbn [for_each]; [reflexivity|].
  rewrite <- (H h' x Hu) by now left. pose proof (Hf h' x) as Hx. destruct (b1 h' x) as [h2 [?|?]]; [|reflexivity].
  apply IH; [intros h3 y Hy Hin; apply H; auto; now right|]. eapply updated_trans; [exact Hu|exact Hx].
Qed.

(** Loops over the generator do the same with bodies that agree. *)
Definition gen_ext {X} (g : generator X) : Prop := forall a h b1 b2, framed a b1 ->
  (forall h' x, updated a h h' -> b1 h' x = b2 h' x) -> g b1 h = g b2 h.

Lemma dm_gen_ext sh rd rsh rs ro : gen_ext (dm_gen sh rd rsh rs ro).
Proof.
  intros a h b1 b2 Hf H. unfold dm_gen. apply (for_each_agree a h); [|intros h' x Hu _|apply updated_refl].
  - intros h2 x. apply eval_frame. intros y. apply Hf.
  - destruct (reduce_index _ _ _ _ x); cbn [eval]; auto.
Qed.

Lemma sparse_gen_ext s : gen_ext (sparse_gen s).
Proof.
  destruct s; intros a h b1 b2 Hf H; cbn [sparse_gen]; try reflexivity.
  - unfold coo_gen. destruct (pyget _ 1); cbn [eval]; [|reflexivity].
    apply (for_each_agree a h); [intros h2 x; apply eval_frame; intros y; apply Hf|intros h' x Hu _|apply updated_refl].
    destruct (bind _ _); cbn [eval]; auto.
  - unfold flatcoo_gen. destruct (init_diophantine _ _); cbn [eval]; [|reflexivity].
    apply (for_each_agree a h); [intros h2 x; apply eval_frame; intros y; apply Hf|intros h' x Hu _|apply updated_refl].
    destruct (bind _ _); cbn [eval]; auto.
  - unfold csr_gen. destruct (pyget _ 0); cbn [eval]; [|reflexivity].
    apply (for_each_agree a h); [intros h2 x; apply eval_frame; intros y|intros h' x Hu _|apply updated_refl].
    + apply for_each_frame. intros h3 z0. apply eval_frame. intros c. apply Hf.
    + destruct (bind _ _) as [l|]; cbn [eval]; [|reflexivity].
      apply (for_each_agree a h); [intros h2 y; apply eval_frame; intros c; apply Hf|intros h2 y Hu2 _|exact Hu].
      destruct (buf_int h2 col y); cbn [eval]; auto.
Qed.

Lemma slice_gen_agree {P} a h sh0 (g : generator (list Z * P)) sh st off b1 b2 : gen_ext g -> st <> [] -> length sh = length st ->
  framed a b1 -> (forall h' x p, updated a h h' -> in_box x sh -> b1 h' (x, p) = b2 h' (x, p)) ->
  slice_gen sh0 g sh st off b1 h = slice_gen sh0 g sh st off b2 h.
Proof.
  intros Hg Hne Hl Hf H. unfold slice_gen. destruct (init_diophantine st (Some sh)) as [sd|] eqn:Ed; cbn [eval]; [|reflexivity].
  apply (Hg a).
  - intros h' [x p]. apply eval_frame. intros [six|]; [apply Hf|apply updated_refl].
  - intros h' [x p] Hu. cbn [fst snd]. destruct (get_position x sh0 (make_strides sh0)) as [sp|]; cbn [bind eval]; [|reflexivity].
    destruct (solve_index_data (sp - off) sh sd) as [[six|]|] eqn:Es; cbn [eval]; try reflexivity.
    apply H; [exact Hu|]. apply (solve_index_sound (sp - off) sh st six Hne Hl). unfold solve_index. rewrite Ed. exact Es.
Qed.

Lemma strided_gen_agree a h sh st off b1 b2 : framed a b1 ->
  (forall h' x p, updated a h h' -> in_box x sh -> b1 h' (x, p) = b2 h' (x, p)) ->
  strided_slice_gen sh st off b1 h = strided_slice_gen sh st off b2 h.
Proof.
  intros Hf H. unfold strided_slice_gen. apply (for_each_agree a h); [|intros h' x Hu Hin|apply updated_refl].
  - intros h2 x. apply eval_frame. intros y. apply Hf.
  - destruct (get_position x sh st); cbn [eval]; [|reflexivity]. apply H; [exact Hu|now apply In_cart].
Qed.

(** * C84 *)

(** Assigning a list that contains arrays does what assigning the nested list of
    their elements does, if no array in the list reads the data of the target. *)
Theorem C84_assign_lists_of_arrays_partial : forall h s ix l v,
  valid h s -> positive (shape_of s) -> ok_index ix (shape_of s) ->
  listed h (NSeq l) v -> arrays (one_by_one h) (NSeq l) ->
  arrays (fun t => ~ In (data_addr s) (addrs t)) (NSeq l) ->
  regular (slice_shape ix (shape_of s)) v ->
  nested_setitem h s ix (NSeq l) = setitem h s ix (SrcSeq v).
Proof.
  intros h s ix l v Hv Hp Hok Hl Ha Hd Hr.
  pose proof (seq_rank h l v _ Hl Hr) as Hne.
  set (sh := shape_of s) in *. set (nix := norm_items (index_items ix) sh). pose proof Hok as [Hitems _].
  assert (Hn : normal_index nix sh) by now apply norm_items_normal.
  assert (Es : n_shape nix sh = slice_shape ix sh) by now apply norm_items_shape.
  assert (Ev : forall h', updated (data_addr s) h h' -> forall j, in_box j (slice_shape ix sh) ->
     nested_value h' (NSeq l) j = get_value h' (SrcSeq v) j).
  { intros h' Hu j Hj. cbn [nested_value]. rewrite (regular_value h' _ v j Hr Hj).
    apply (nested_walks h' (NSeq l) (slice_shape ix sh)); auto.
    - eapply listed_frame; eassumption.
    - eapply arrays_impl; [|exact (arrays_and _ _ _ Ha Hd)]. cbn beta. intros t [H1 H2]. eapply one_by_one_frame; eassumption. }
  assert (Hput : forall {P} (write : heap -> P -> pyval -> outcome) h' x p, updated (data_addr s) h h' ->
     in_box x (slice_shape ix sh) -> nested_put write (NSeq l) h' (x, p) = put write (SrcSeq v) h' (x, p)).
  { intros P write h' x p Hu Hx. unfold nested_put, put. cbn [fst snd]. now rewrite (Ev h' Hu x Hx). }
  assert (Hfr : forall {P} (write : heap -> P -> pyval -> outcome), (forall h p v, updated (data_addr s) h (fst (write h p v))) ->
     framed (data_addr s) (nested_put write (NSeq l))).
  { intros P write Hw h' [x p]. apply eval_frame. intros y. apply Hw. }
  assert (Hst : forall st, length st = length sh -> n_strides nix st <> [] /\ length (n_shape nix sh) = length (n_strides nix st)).
  { intros st Hlen. pose proof (n_strides_length nix sh st Hlen) as E. split; [|congruence].
    intros E0. rewrite E0, Es in E. destruct (slice_shape ix sh); [congruence|discriminate]. }
  assert (Hmk : length (make_strides sh) = length sh) by apply make_strides_length.
  destruct s as [b|t|sh0 ind d|sh0 fi d|sh0 cr co d|sh0 ch x y z d|sh0 rd rsh rs ro data]; cbn [nested_setitem setitem].
  - unfold buffer_setitem. destruct (buf_complete_index ix) as [[]|] eqn:E; try reflexivity. exfalso. apply Hne.
    unfold sh. cbn [shape_of]. clear - E. destruct ix as [[]|[|[] []]]; cbn in E |- *; try discriminate E; reflexivity.
  - destruct Hv as (f & lst & _ & Hs & _). cbn [shape_of] in sh. fold sh.
    rewrite normalize_index_ok by assumption. fold nix. cbn [bind].
    rewrite index_strided_ok by (auto; apply (so_strides _ _ Hs)). cbn [eval].
    apply (strided_gen_agree (baddr (sdata t))).
    + apply Hfr. intros. apply buf_write_frame.
    + intros h' x p Hu Hx. rewrite Es in Hx. apply Hput; assumption.
  - rewrite normalize_index_ok by assumption. fold sh. fold nix. cbn [bind].
    rewrite index_strided_ok by assumption. cbn [eval bind data_buffer]. destruct (Hst _ Hmk) as [S1 S2].
    apply (slice_gen_agree (baddr d)); auto; [apply sparse_gen_ext| |intros; apply Hput; auto; now rewrite <- Es].
    apply Hfr. intros. apply buf_write_frame.
  - rewrite normalize_index_ok by assumption. fold sh. fold nix. cbn [bind].
    rewrite index_strided_ok by assumption. cbn [eval bind data_buffer]. destruct (Hst _ Hmk) as [S1 S2].
    apply (slice_gen_agree (baddr d)); auto; [apply sparse_gen_ext| |intros; apply Hput; auto; now rewrite <- Es].
    apply Hfr. intros. apply buf_write_frame.
  - rewrite normalize_index_ok by assumption. fold sh. fold nix. cbn [bind].
    rewrite index_strided_ok by assumption. cbn [eval bind data_buffer]. destruct (Hst _ Hmk) as [S1 S2].
    apply (slice_gen_agree (baddr d)); auto; [apply sparse_gen_ext| |intros; apply Hput; auto; now rewrite <- Es].
    apply Hfr. intros. apply buf_write_frame.
  - destruct Hv as (f & E & HE & _). destruct HE; contradiction.
  - cbn [shape_of] in sh. fold sh.
    rewrite normalize_index_ok by assumption. fold nix. cbn [bind].
    rewrite index_strided_ok by assumption. cbn [eval]. destruct (Hst _ Hmk) as [S1 S2].
    apply (slice_gen_agree (data_addr data)); auto; [apply dm_gen_ext| |intros; apply Hput; auto; now rewrite <- Es].
    apply Hfr. intros. cbn [data_addr]. apply setitem_frame.
Qed.
Print Assumptions C84_assign_lists_of_arrays_partial.

(** The condition on the data is needed: [a[0:2] = [a[1], a[0]]], the exchange of two
    rows, copies the second row to the first and then the copy back. *)
Definition square : res (storage * heap) :=
  fromobject CStrided [] (SrcSeq (VSeq [VSeq [VInt 1; VInt 2]; VSeq [VInt 3; VInt 4]])) (fo_unspecified None).
Definition rows_01 : pyindex := XItem (ISlice (Sl (Some 0) (Some 2) None)).
Theorem C84_exchange_refuted : exists a r0 r1 h h',
  square = Ok (a, h) /\ valid h a
  /\ getitem h a (XItem (IInt 0)) = Ok (ISto r0, h) /\ getitem h a (XItem (IInt 1)) = Ok (ISto r1, h)
  /\ listed h (NSeq [NSto r1; NSto r0]) (VSeq [VSeq [VInt 3; VInt 4]; VSeq [VInt 1; VInt 2]])
  /\ nested_setitem h a rows_01 (NSeq [NSto r1; NSto r0]) = (h', Ok tt)
  /\ elements h' a = Ok [(KTup [0; 0], VInt 3); (KTup [0; 1], VInt 4); (KTup [1; 0], VInt 3); (KTup [1; 1], VInt 4)].
Proof.
  destruct (C22_fromobject_elements CStrided [] (VSeq [VSeq [VInt 1; VInt 2]; VSeq [VInt 3; VInt 4]]) [2; 2] None)
    as (a & h & E & _ & _ & _ & V & _); [cbn; repeat (split || constructor || lia)|exact I|discriminate|].
  pose proof E as E0. vm_compute in E0. injection E0 as <- <-.
  eexists _, _, _, _, _. split; [exact E|]. split; [exact V|]. split; [vm_compute; reflexivity|]. split; [vm_compute; reflexivity|].
  split; [|vm_compute; auto].
  assert (B : forall i n, in_box i [n] -> n = 2 -> i = [0] \/ i = [1]).
  { intros i n Hi ->. apply in_box_1 in Hi. destruct Hi as (z & -> & Hz). assert (z = 0 \/ z = 1) as [->| ->] by lia; auto. }
  cbn [listed]. repeat split; try (cbn; lia); try (repeat constructor);
    intros i Hi; (destruct (B i 2 Hi eq_refl) as [->| ->]); eexists; (split; [reflexivity|vm_compute; reflexivity]).
Qed.
Print Assumptions C84_exchange_refuted.

(** The same assignment with copies of the rows meets the hypotheses. *)
Definition exchange : res (storage * list nested * heap) :=
  '(a, h1) <- square ;;
  '(x, h2) <- fromobject CFlatCOO h1 (SrcSeq (VSeq [VInt 3; VInt 4])) (fo_unspecified None) ;;
  '(y, h3) <- fromobject CBuffer h2 (SrcSeq (VSeq [VInt 1; VInt 2])) (fo_unspecified None) ;;
  Ok (a, [NSto x; NSto y], h3).
Example C84_exchange_case : exists a l h v h', exchange = Ok (a, l, h)
  /\ valid h a /\ positive (shape_of a) /\ ok_index rows_01 (shape_of a)
  /\ listed h (NSeq l) v /\ arrays (one_by_one h) (NSeq l)
  /\ arrays (fun t => ~ In (data_addr a) (addrs t)) (NSeq l)
  /\ regular (slice_shape rows_01 (shape_of a)) v
  /\ nested_setitem h a rows_01 (NSeq l) = (h', Ok tt)
  /\ elements h' a = Ok [(KTup [0; 0], VInt 3); (KTup [0; 1], VInt 4); (KTup [1; 0], VInt 1); (KTup [1; 1], VInt 2)].
Proof.
  destruct (C22_fromobject_elements CStrided [] (VSeq [VSeq [VInt 1; VInt 2]; VSeq [VInt 3; VInt 4]]) [2; 2] None)
    as (a & h1 & E1 & _ & _ & _ & V1 & _); [cbn; repeat (split || constructor || lia)|exact I|discriminate|].
  destruct (C22_fromobject_elements CFlatCOO h1 (VSeq [VInt 3; VInt 4]) [2] None) as (x & h2 & E2 & _ & _ & _ & V2 & _);
    [cbn; repeat (split || constructor || lia)|discriminate|discriminate|].
  destruct (C22_fromobject_elements CBuffer h2 (VSeq [VInt 1; VInt 2]) [2] None) as (y & h3 & E3 & _ & _ & _ & V3 & _);
    [cbn; repeat (split || constructor || lia)|reflexivity|discriminate|].
  assert (E : exchange = Ok (a, [NSto x; NSto y], h3)).
  { unfold exchange, square. rewrite E1. cbn [bind]. rewrite E2. cbn [bind]. rewrite E3. reflexivity. }
  vm_compute in E1. injection E1 as <- <-. vm_compute in E2. injection E2 as <- <-. vm_compute in E3. injection E3 as <- <-.
  eexists _, _, _, (VSeq [VSeq [VInt 3; VInt 4]; VSeq [VInt 1; VInt 2]]), _. split; [exact E|].
  split; [destruct V1 as [f Hf]; exists f; eapply repr_extends; [|exact Hf]; eexists [_; _; _]; reflexivity|].
  split; [repeat constructor|]. split; [split; [repeat constructor; cbn; lia|right; cbn; lia]|].
  split; [|split; [|split; [|split; [|vm_compute; auto]]]].
  - assert (B : forall i n, in_box i [n] -> n = 2 -> i = [0] \/ i = [1]).
    { intros i n Hi ->. apply in_box_1 in Hi. destruct Hi as (z & -> & Hz). assert (z = 0 \/ z = 1) as [->| ->] by lia; auto. }
    cbn [listed]. repeat split; try (cbn; lia); try (repeat constructor);
      intros i Hi; (destruct (B i 2 Hi eq_refl) as [->| ->]); eexists; (split; [reflexivity|vm_compute; reflexivity]).
  - cbn [arrays]. split; [|split; [apply obo_buffer; exact V3|exact I]]. apply obo_plain; [|discriminate|exact I].
    destruct V2 as [f Hf]; exists f; eapply repr_extends; [|exact Hf]; eexists [_]; reflexivity.
  - cbn. repeat split; lia.
  - change (slice_shape rows_01 _) with [2; 2]. cbn [regular]. split; [reflexivity|]. split; [discriminate|].
    repeat constructor; discriminate.
Qed.

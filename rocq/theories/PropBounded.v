(** C102: how many accesses to lists a statement takes at most, and that therefore
    no thread waits for another one. *)
From Verif Require Import Py SliceTools Basics Storage Spec SliceFacts IndexFacts SolverFacts Repr ReprFacts SparseFacts
  CompressFacts ReduceFacts MapFacts DMFacts WriteFacts RefineFacts PropWrite Threads ThreadFacts PropThreads PropRaces PropFlow PropApart.
From Coq Require Import List.
Import ListNotations.

(** How often [n] things can be halved until none is left: the number of binary
    digits of [n]. *)
Definition halvings (n : Z) : nat := if n <=? 0 then O else S (Z.to_nat (Z.log2 n)).
Definition rank (sh : list Z) : nat := length sh.
Definition count (n : Z) : nat := Z.to_nat n.

(** Accesses for reading one element: one for dense arrays; for sparse arrays a
    binary search among the [n] stored elements, in which COO compares an index
    with up to one list access for each axis, and CSR first reads the two ends of
    the row. *)
Fixpoint read_cost (s : storage) : nat :=
  match s with
  | SBuffer _ | SStrided _ => 1
  | SCOO sh _ d => rank sh * halvings (bsize d) + 1
  | SFlatCOO _ _ d => halvings (bsize d) + 1
  | SCSR _ _ _ d => 2 + halvings (bsize d) + 1
  | SC2SR _ _ _ _ _ _ => 0
  | SDM _ _ _ _ _ d => read_cost d
  end.
Definition value_cost (value : source) : nat := match value with SrcSeq _ => 0 | SrcSto t => read_cost t end.
(** Accesses for assigning to a slice of [m] elements, if each item of the value
    takes [c]: the items are read and written one by one; a sparse array goes
    through the indices of all its stored elements and writes those in the slice. *)
Definition write_cost (s : storage) (m c : nat) : nat :=
  match s with
  | SCOO sh _ d => count (bsize d) * rank sh + Nat.min (count (bsize d)) m * (c + 1)
  | SFlatCOO _ _ d => count (bsize d) + Nat.min (count (bsize d)) m * (c + 1)
  | SCSR sh _ _ d => 2 * count (nth 0 sh 0) + count (bsize d) + Nat.min (count (bsize d)) m * (c + 1)
  | _ => m * (c + 1)
  end.
Definition op_cost (o : op) : nat :=
  match o with
  | Read s _ => read_cost s
  | Assign s ix value => write_cost s (count (n_elements (slice_shape ix (shape_of s)))) (value_cost value)
  end.
Definition cost (ops : list op) : nat := list_sum (map op_cost ops).
(** The turns a schedule gives to thread [j]. *)
Definition turns (j : nat) (sched : list nat) : nat := count_occ Nat.eq_dec sched j.

Lemma halvings_mono a b : a <= b -> (halvings a <= halvings b)%nat.
Proof.
  intros H. unfold halvings. destruct (Z.leb_spec a 0); [apply Nat.le_0_l|]. destruct (Z.leb_spec b 0); [lia|].
  apply le_n_S. apply Z2Nat.inj_le; try apply Z.log2_nonneg. now apply Z.log2_le_mono.
Qed.
Lemma halvings_half w : 0 < w -> (S (halvings (w / 2)) <= halvings w)%nat.
Proof.
  intros H. unfold halvings. destruct (Z.leb_spec w 0); [lia|]. destruct (Z.leb_spec (w / 2) 0); [lia|]. apply le_n_S.
  assert (E : Z.log2 w = Z.log2 (w / 2) + 1).
  { assert (2 <= w) by (pose proof (Z.mod_pos_bound w 2 ltac:(lia)); pose proof (Z.div_mod w 2 ltac:(lia)); lia). replace (w / 2) with (Z.shiftr w 1) by (now rewrite Z.shiftr_div_pow2 by lia).
    rewrite Z.log2_shiftr by lia. pose proof (Z.log2_le_mono 2 w ltac:(lia)) as X. change (Z.log2 2) with 1 in X. lia. }
  rewrite E. rewrite Z2Nat.inj_add by (try apply Z.log2_nonneg; lia). cbn. lia.
Qed.

Lemma filter_length_le {A} (f : A -> bool) l : (length (filter f l) <= length l)%nat.
Proof. induction l as [|x l IH]; cbn [filter length]; [lia|]. destruct (f x); cbn [length]; lia. Qed.

Lemma mapM_length {X Y} (f : X -> res Y) : forall l L, mapM f l = Ok L -> length L = length l.
Proof.
  induction l as [|x l IH]; intros L E; cbn [mapM] in E; [injection E as <-; reflexivity|].
  apply bind_ok in E as (y & _ & E). apply bind_ok in E as (L' & EL & E). injection E as <-. cbn [length]. f_equal. now apply IH.
Qed.
Lemma NoDup_keys {X Y} (L : list (X * Y)) : NoDup (map snd L) -> (forall x y y', In (x, y) L -> In (x, y') L -> y = y') -> NoDup (map fst L).
Proof.
  induction L as [|[x y] L IH]; intros N F; cbn [map fst snd] in *; [constructor|]. inversion N as [|? ? N1 N2]; subst. constructor.
  - intros H. apply in_map_iff in H as ([x' y'] & E & H). cbn [fst] in E. subst x'. apply N1.
    rewrite (F x y y' (or_introl eq_refl) (or_intror H)). change y' with (snd (x, y')). now apply in_map.
  - apply IH; [exact N2|]. intros a b b' H1 H2. apply (F a); now right.
Qed.
Lemma items_bound {P} (L : list (list Z * P)) sh : NoDup (map fst L) -> (forall j p, In (j, p) L -> in_box j sh) -> (length L <= count (n_elements sh))%nat.
Proof.
  intros N H. destruct L as [|[j0 p0] L0] eqn:EL; [cbn; lia|]. rewrite <- EL in *.
  assert (Hn : nonneg sh).
  { assert (B : in_box j0 sh) by (apply (H j0 p0); rewrite EL; now left). clear - B. induction B; constructor; [cbn in *; lia|assumption]. }
  unfold count. replace (n_elements sh) with (Z.of_nat (length (cart sh))) by (rewrite BuildFacts.cart_length by exact Hn; unfold n_elements; clear; induction sh; cbn [product fold_right]; congruence).
  rewrite Nat2Z.id, <- (map_length fst). apply NoDup_incl_length; [exact N|]. intros j Hj. apply in_map_iff in Hj as ([j' p] & <- & Hp).
  apply In_cart. now apply (H j' p).
Qed.
Lemma slice_length {P} sh0 (l : list (list Z * P)) sh st off L : slice_iad sh0 (Ok l) sh st off = Ok L -> (length L <= length l)%nat.
Proof.
  unfold slice_iad. intros E. apply bind_ok in E as (sd & _ & E). cbn [bind] in E. revert L E. induction l as [|[ix p] l IH]; intros L E; cbn [slice_iad_loop] in E.
  - injection E as <-. cbn. lia.
  - apply bind_ok in E as (sp & E1 & E). apply bind_ok in E as (q & E2 & E). apply bind_ok in E as (rest & E3 & E). apply IH in E3.
    destruct q; injection E as <-; cbn [length]; lia.
Qed.

Section Quick.
Variable h0 : heap.
Variable K : nat -> Prop.

(** The program ends after at most [n] accesses, provided the lists in [K] stay as
    they are in [h0]. *)
Fixpoint quick {A} (m : prog A) (n : nat) : Prop :=
  match m with
  | Ret _ => True
  | Get a p k => exists n', n = S n' /\ forall v, (K a -> hget h0 a p = Ok v) -> quick (k v) n'
  | Put a p v k => exists n', n = S n' /\ quick k n'
  end.
Lemma quick_mono {A} (m : prog A) : forall n n', quick m n -> (n <= n')%nat -> quick m n'.
Proof.
  induction m as [r|a p k IH|a p v k IH]; intros n n' H L; cbn [quick] in *; [exact I| |].
  - destruct H as (n1 & -> & H). destruct n' as [|n']; [lia|]. exists n'. split; [reflexivity|]. intros v Hv. apply (IH v n1); [now apply H|lia].
  - destruct H as (n1 & -> & H). destruct n' as [|n']; [lia|]. exists n'. split; [reflexivity|]. apply (IH n1); [exact H|lia].
Qed.
Lemma quick_bind {A B} (m : prog A) (f : A -> prog B) c : (forall x, quick (f x) c) -> forall n, quick m n -> quick (pbind m f) (n + c).
Proof.
  intros Hf. induction m as [[x|e]|a p k IH|a p v k IH]; intros n H; cbn [quick pbind] in *.
  - apply (quick_mono _ c); [apply Hf|lia].
  - exact I.
  - destruct H as (n1 & -> & H). exists (n1 + c)%nat. split; [reflexivity|]. intros v Hv. apply IH. now apply H.
  - destruct H as (n1 & -> & H). exists (n1 + c)%nat. split; [reflexivity|]. now apply IH.
Qed.
Lemma quick_then {A B} (m : prog A) (f : A -> prog B) n : (forall x, quick (f x) 0) -> quick m n -> quick (pbind m f) n.
Proof. intros Hf Hm. rewrite <- (Nat.add_0_r n). now apply quick_bind. Qed.
Lemma quick_pre {A B} (r : res A) (f : A -> prog B) n : (forall x, r = Ok x -> quick (f x) n) -> quick (pbind (Ret r) f) n.
Proof. destruct r as [x|e]; cbn [pbind]; [auto|]. intros _. exact I. Qed.
(** Reading lists in [K] gives what they hold in [h0]. *)
Lemma quick_still {A B} (m : prog A) (f : A -> prog B) c : within (fun a _ => K a) (fun _ _ => False) m ->
  (forall x, snd (run m h0) = Ok x -> quick (f x) c) -> forall n, quick m n -> quick (pbind m f) (n + c).
Proof.
  induction m as [[x|e]|a p k IH|a p v k IH]; intros Hw Hf n H; cbn [quick pbind within run] in *.
  - apply (quick_mono _ c); [now apply Hf|lia].
  - exact I.
  - destruct Hw as [W1 W2]. destruct H as (n1 & -> & H). exists (n1 + c)%nat. split; [reflexivity|]. intros v Hv.
    rewrite (Hv W1) in Hf. apply IH; [apply W2|exact Hf|]. apply H. exact Hv.
  - destruct Hw as [[] _].
Qed.
Lemma quick_for {X} (bt : X -> prog unit) (w : X -> nat) : forall l, (forall x, In x l -> quick (bt x) (w x)) ->
  quick (for_t l bt) (list_sum (map w l)).
Proof.
  induction l as [|x l IH]; intros H; cbn [for_t map list_sum fold_right]; [exact I|].
  apply (quick_bind (bt x) (fun _ => for_t l bt)); [|apply H; now left]. intros _. apply IH. intros y Hy. apply H. now right.
Qed.
Lemma sum_const {X} (l : list X) (b : nat) : list_sum (map (fun _ => b) l) = (length l * b)%nat.
Proof. induction l; cbn [map list_sum fold_right length]; [reflexivity|]. unfold list_sum in *. lia. Qed.

(** * Reading *)
Lemma quick_get b i : quick (buf_get_t b i) 1.
Proof. exists O. split; [reflexivity|]. intros v _. exact I. Qed.
Lemma quick_int b i : quick (buf_int_t b i) 1.
Proof. apply quick_then; [intros x; exact I|apply quick_get]. Qed.
Lemma quick_strided t i : quick (strided_elem_t t i) 1.
Proof.
  unfold strided_elem_t. apply quick_pre. intros nix _. destruct (is_element_index nix (sshape t)); [|exact I].
  apply quick_pre. intros p _. apply quick_get.
Qed.
Lemma quick_strided_int t i : quick (strided_int_t t i) 1.
Proof. apply quick_then; [intros x; exact I|apply quick_strided]. Qed.
Lemma quick_bsearch d c : (forall p, quick (d p) c) -> forall fuel l r, quick (bsearch_t fuel l r d) (c * halvings (r - l + 1)).
Proof.
  intros Hd. induction fuel as [|fuel IH]; intros l r; cbn [bsearch_t]; [exact I|]. destruct (Z.ltb_spec r l) as [H|H]; [exact I|].
  set (q := (l + r) / 2).
  assert (Q1 : l + r - 1 <= 2 * q <= l + r) by (unfold q; pose proof (Z.mod_pos_bound (l + r) 2 ltac:(lia)); pose proof (Z.div_mod (l + r) 2 ltac:(lia)); lia).
  assert (Q2 : r - l + 1 - 1 <= 2 * ((r - l + 1) / 2)) by (pose proof (Z.mod_pos_bound (r - l + 1) 2 ltac:(lia)); pose proof (Z.div_mod (r - l + 1) 2 ltac:(lia)); lia).
  pose proof (halvings_half (r - l + 1) ltac:(lia)) as Hh.
  assert (H1 : (halvings (r - (q + 1) + 1) <= halvings ((r - l + 1) / 2))%nat) by (apply halvings_mono; lia).
  assert (H2 : (halvings (q - 1 - l + 1) <= halvings ((r - l + 1) / 2))%nat) by (apply halvings_mono; lia).
  apply (quick_mono _ (c + c * halvings ((r - l + 1) / 2))); [|nia].
  apply quick_bind; [|apply Hd]. intros z. destruct (z =? 0); [exact I|]. destruct (z <? 0).
  - eapply quick_mono; [apply IH|nia].
  - eapply quick_mono; [apply IH|nia].
Qed.
Lemma quick_coo_diff ind pos ix : forall js, quick (coo_diff_t ind pos js ix) (length js).
Proof.
  induction js as [|j js IH]; cbn [coo_diff_t length]; [exact I|]. change (S (length js)) with (1 + length js)%nat. apply quick_bind; [|apply quick_strided_int].
  intros v. apply quick_pre. intros i _. destruct (v - i =? 0); [exact IH|exact I].
Qed.
Lemma quick_still_int b i c : K (baddr b) -> forall B (f : Z -> prog B),
  (forall x, buf_int h0 b i = Ok x -> quick (f x) c) -> quick (pbind (buf_int_t b i) f) (S c).
Proof.
  intros Hb B f Hf. change (S c) with (1 + c)%nat. apply (quick_still (buf_int_t b i) f c (w_buf_int _ _ b i (fun _ => Hb))); [|apply quick_int].
  intros x Ex. rewrite reads_buf_int in Ex. now apply Hf.
Qed.
Lemma position_quick s E d i : entries h0 s E -> data_buffer s = Ok d -> in_box i (shape_of s) -> (forall a, In a (index_addrs s) -> K a) ->
  quick (flat_data_position_t s i) (read_cost s - 1).
Proof.
  intros HE Ed Hi HK. destruct (entries_data h0 s E HE) as (d' & Ed' & Hd & _). rewrite Ed in Ed'. injection Ed' as <-.
  assert (Hb : bsize d = zlen E) by (destruct Hd as (l & _ & _ & Hs & _); now rewrite zlen_map in Hs).
  destruct s as [b|t|sh ind d'|sh fi d'|sh cr co d'|sh ch a b c d'|sh rd rsh rs ro d']; try contradiction; cbn [data_buffer] in Ed; injection Ed as ->;
    cbn [flat_data_position_t read_cost index_addrs shape_of] in *.
  - destruct HE as (Hn & Hne & Ho & _ & Es & _). unfold get_coo_position_t. rewrite Es. change (pyget [zlen sh; zlen E] 1) with (Ok (zlen E)). cbn [pbind].
    rewrite Nat.add_sub. rewrite Hb. replace (zlen E) with (zlen E - 1 - 0 + 1) at 3 by lia.
    apply quick_bsearch. intros p. eapply quick_mono; [apply quick_coo_diff|]. unfold rank. rewrite zseq_length_nat. unfold zlen. lia.
  - apply quick_pre. intros p _. unfold get_flatcoo_position_t. destruct HE as (_ & _ & _ & _ & Hf & _).
    assert (Hfi : bsize fi = zlen E) by (destruct Hf as (l & _ & _ & Hs & _); now rewrite zlen_map in Hs).
    rewrite Nat.add_sub. rewrite Hb, Hfi. replace (halvings (zlen E)) with (1 * halvings (zlen E - 1 - 0 + 1))%nat by (f_equal; rewrite Nat.mul_1_l; f_equal; lia).
    apply quick_bsearch. intros q. apply quick_then; [intros x; exact I|apply quick_int].
  - destruct HE as (Hn & Hl & Ho & _ & Hr & Hc & _). destruct sh as [|n [|m [|? ?]]]; cbn in Hl; try lia.
    destruct (in_box_2 i n m Hi) as (r & c & -> & Hrn & Hcm). unfold get_csr_position_t. cbn [nth] in Hr.
    replace (2 + halvings (bsize d) + 1 - 1)%nat with (S (S (halvings (bsize d)))) by lia.
    assert (Hz : forall x v, 0 <= x <= n -> buf_int h0 cr x = Ok v -> 0 <= v <= zlen E).
    { intros x v Hx Ex. rewrite <- map_map with (g := VInt) in Hr. rewrite (buf_int_ok h0 cr _ x Hr) in Ex by (rewrite zlen_map, zseq_length; lia).
      injection Ex as <-. unfold znth. rewrite nth_map_zseq by lia. split; [unfold zlen; lia|].
      unfold zlen. pose proof (filter_length_le (fun y => y <? x) (column 0 E)). unfold column in *. rewrite map_length in *. lia. }
    apply quick_still_int; [apply HK; now left|]. intros lo Hlo. apply quick_still_int; [apply HK; now left|]. intros hi Hhi.
    apply Hz in Hlo; [|lia]. apply Hz in Hhi; [|lia].
    apply (quick_mono _ (1 * halvings (hi - 1 - lo + 1))); [|rewrite Nat.mul_1_l; apply halvings_mono; lia].
    apply quick_bsearch. intros q. apply quick_then; [intros x; exact I|apply quick_int].
Qed.

Lemma flat_quick s E i : entries h0 s E -> in_box i (shape_of s) -> (forall a, In a (index_addrs s) -> K a) ->
  quick (flat_get_elem_t s i) (read_cost s).
Proof.
  intros HE Hi HK. destruct (entries_data h0 s E HE) as (d & Ed & _).
  unfold flat_get_elem_t. apply (quick_mono _ (read_cost s - 1 + 1)).
  - apply quick_bind; [|exact (position_quick s E d i HE Ed Hi HK)]. intros [p|]; [|exact I]. apply quick_pre. intros b _. apply quick_get.
  - destruct s; try contradiction; cbn [read_cost]; lia.
Qed.
Lemma read_quick : forall s i, valid h0 s -> in_box i (shape_of s) -> (forall a, In a (index_addrs s) -> K a) -> quick (get_elem_t s i) (read_cost s).
Proof.
  induction s as [b|t|sh ind d|sh fi d|sh cr co d|sh ch a b c d|sh rd rsh rs ro d IH]; intros i [f Hf] Hi HK; cbn [get_elem_t shape_of] in *.
  - destruct i as [|k [|? ?]]; try exact I. apply quick_get.
  - apply quick_strided.
  - destruct Hf as (E & HE & _). destruct (normal_element i _ Hi) as (E1 & E2 & E3). rewrite E1. cbn [pbind]. rewrite E2, E3. now apply (flat_quick _ E).
  - destruct Hf as (E & HE & _). destruct (normal_element i _ Hi) as (E1 & E2 & E3). rewrite E1. cbn [pbind]. rewrite E2, E3. now apply (flat_quick _ E).
  - destruct Hf as (E & HE & _). destruct (normal_element i _ Hi) as (E1 & E2 & E3). rewrite E1. cbn [pbind]. rewrite E2, E3. now apply (flat_quick _ E).
  - destruct Hf as (E & HE & _). contradiction.
  - destruct Hf as (g & Hg & Hd & _). cbn [index_addrs read_cost] in *.
    destruct (normal_element i _ Hi) as (E1 & E2 & E3). rewrite E1. cbn [pbind]. rewrite E2, E3. pose proof (dm_rshapes _ _ _ _ _ _ Hd) as Er. subst rsh.
    rewrite reduce_index_dm; [|apply (dm_rstrides _ _ _ _ _ _ Hd)| |apply (dm_roffset _ _ _ _ _ _ Hd)].
    2:{ rewrite (in_box_zlen _ _ Hi). apply perm_axes, (dm_perm _ _ _ _ _ _ Hd). }
    cbn [pbind]. apply IH; [now exists g|apply (dm_box _ _ _ _ _ _ Hd i Hi)|exact HK].
Qed.

(** * Assignments *)

(** The loop [G] calls its body once for each item of [L], and takes [o] accesses
    itself. *)
Definition calls_each {X} (o : nat) (G : generator_t X) (L : list X) : Prop :=
  forall bt (w : X -> nat), (forall x, In x L -> quick (bt x) (w x)) -> quick (G bt) (o + list_sum (map w L)).
Lemma for_calls {X Y} (g : Y -> res X) (body : Y -> prog unit) (bt : X -> prog unit) c :
  (forall y x, g y = Ok x -> forall b, quick (bt x) b -> quick (body y) (c + b)) ->
  forall l L w, mapM g l = Ok L -> (forall x, In x L -> quick (bt x) (w x)) -> quick (for_t l body) (length l * c + list_sum (map w L)).
Proof.
  intros Hs. induction l as [|y l IH]; intros L w E Hb; cbn [mapM for_t] in *; [exact I|].
  apply bind_ok in E as (x & Ex & E). apply bind_ok in E as (L' & EL & E). injection E as <-. cbn [length map].
  change (list_sum (w x :: map w L')) with (w x + list_sum (map w L'))%nat.
  replace (S (length l) * c + (w x + list_sum (map w L')))%nat with (c + w x + (length l * c + list_sum (map w L')))%nat by lia.
  apply (quick_bind (body y) (fun _ => for_t l body)).
  - intros _. apply IH; [exact EL|]. intros z Hz. apply Hb. now right.
  - apply (Hs y x Ex). apply Hb. now left.
Qed.
Lemma strided_calls sh st off L : strided_slice_iad sh st off = Ok L -> calls_each 0 (strided_slice_gen_t sh st off) L.
Proof.
  intros E bt w Hb. unfold strided_slice_gen_t. rewrite <- (Nat.mul_0_r (length (cart sh))).
  refine (for_calls _ _ bt 0 _ (cart sh) L w E Hb). cbn beta. intros y x Ex b Hx.
  apply bind_ok in Ex as (p & -> & Ex). injection Ex as <-. exact Hx.
Qed.
Lemma dm_calls sh rd rsh rs ro L : dm_iad sh rd rsh rs ro = Ok L -> calls_each 0 (dm_gen_t sh rd rsh rs ro) L.
Proof.
  intros E bt w Hb. unfold dm_gen_t. rewrite <- (Nat.mul_0_r (length (cart sh))).
  refine (for_calls _ _ bt 0 _ (cart sh) L w E Hb). cbn beta. intros y x Ex b Hx.
  apply bind_ok in Ex as (p & -> & Ex). injection Ex as <-. exact Hx.
Qed.
Lemma slice_calls {P} o sh0 (G : generator_t (list Z * P)) l sh st off L : calls_each o G l ->
  slice_iad sh0 (Ok l) sh st off = Ok L -> calls_each o (slice_gen_t sh0 G sh st off) L.
Proof.
  intros Hg E bt w Hb. unfold slice_gen_t, slice_iad in *. apply bind_ok in E as (sd & -> & E). cbn [pbind bind] in *.
  set (w' := fun item : list Z * P => match (sp <- get_position (fst item) sh0 (make_strides sh0) ;; solve_index_data (sp - off) sh sd) with
                                      | Ok (Some six) => w (six, snd item) | _ => O end).
  assert (X : list_sum (map w' l) = list_sum (map w L) /\ forall x, In x l -> quick
    (sp <~ Ret (get_position (fst x) sh0 (make_strides sh0));; o0 <~ Ret (solve_index_data (sp - off) sh sd);;
       match o0 with Some six => bt (six, snd x) | None => Ret (Ok tt) end) (w' x)).
  { clear Hg. revert L E Hb. induction l as [|[ix p] l IH]; intros L E Hb; cbn [slice_iad_loop] in E.
    - injection E as <-. split; [reflexivity|]. intros x [].
    - apply bind_ok in E as (sp & E1 & E). apply bind_ok in E as (q & E2 & E). apply bind_ok in E as (rest & E3 & E).
      assert (Hr : forall y, In y rest -> quick (bt y) (w y)) by (intros y Hy; apply Hb; destruct q; injection E as <-; [now right|exact Hy]).
      destruct (IH rest E3 Hr) as [I1 I2].
      assert (Ew : w' (ix, p) = match q with Some six => w (six, p) | None => O end) by (unfold w'; cbn [fst snd]; rewrite E1; cbn [bind]; rewrite E2; now destruct q).
      split.
      + cbn [map]. rewrite Ew. destruct q; injection E as <-; cbn [map]; [|exact I1].
        change (list_sum (?a :: ?b)) with (a + list_sum b)%nat. now rewrite <- I1.
      + intros x [<-|Hx]; [|now apply I2]. rewrite Ew. cbn [fst snd]. rewrite E1. cbn [pbind]. rewrite E2. cbn [pbind].
        destruct q as [six|]; [|exact I]. apply Hb. injection E as <-. now left. }
  destruct X as [<- X]. now apply Hg.
Qed.
Lemma sparse_calls s E L : entries h0 s E -> (forall a, In a (index_addrs s) -> K a) -> sparse_iad h0 s = Ok L -> length L = length E ->
  calls_each (write_cost s 0 0) (sparse_gen_t s) L.
Proof.
  intros HE HK EL HL bt w Hb. destruct (entries_data h0 s E HE) as (d' & Ed & Hd & _).
  assert (Hn : bsize d' = zlen E) by (destruct Hd as (l & _ & _ & Hs & _); now rewrite zlen_map in Hs).
  assert (Hc : count (bsize d') = length E) by (unfold count, zlen in *; lia).
  destruct s as [b|t|sh ind d|sh fi d|sh cr co d|sh ch a b c d|sh rd rsh rs ro d]; try contradiction; cbn [sparse_iad sparse_gen_t index_addrs data_buffer] in *;
    injection Ed as ->; cbn [write_cost]; rewrite Hc; rewrite Nat.min_0_r, Nat.mul_0_l, Nat.add_0_r.
  - unfold coo_iad in EL. unfold coo_gen_t. apply bind_ok in EL as (n & E1 & EL). apply bind_ok in EL as (rows & E0 & EL). rewrite E1. cbn [pbind].
    destruct HE as (_ & _ & _ & _ & Es & _). rewrite Es in E0, E1. injection E0 as <-. injection E1 as <-.
    replace (length E) with (length (zseq (zlen E))) by (rewrite zseq_length_nat; unfold zlen; lia).
    refine (for_calls _ _ bt (rank sh) _ (zseq (zlen E)) L w EL Hb). cbn beta. intros pos x Ex b Hx. rewrite Es.
    change (pyget [zlen sh; zlen E] 0) with (Ok (zlen sh)). cbn [pbind].
    apply bind_ok in Ex as (ix & Ei & Ex). injection Ex as <-.
    apply quick_still.
    + generalize (zseq (zlen sh)). intros js. induction js as [|j js IHj]; cbn [mapM_t]; [exact I|].
      apply within_bind; [apply w_strided_int; intros q; apply HK; now left|]. intros y. apply within_bind; [exact IHj|]. intros ys. exact I.
    + rewrite (reads_mapM _ (fun h j => strided_int h ind (int_tuple [j; pos]))).
      * cbn [snd]. intros y Ey. rewrite Ei in Ey. injection Ey as <-. exact Hx.
      * intros j. apply reads_strided_int. now rewrite Es.
    + replace (rank sh) with (length (zseq (zlen sh))) by (rewrite zseq_length_nat; unfold zlen, rank; lia).
      generalize (zseq (zlen sh)). intros js. induction js as [|j js IHj]; cbn [mapM_t length]; [exact I|].
      change (S (length js)) with (1 + length js)%nat. apply quick_bind; [|apply quick_strided_int]. intros y. apply quick_then; [|exact IHj]. intros ys. exact I.
  - unfold flatcoo_iad in EL. unfold flatcoo_gen_t. apply bind_ok in EL as (sd & -> & EL). cbn [pbind].
    destruct HE as (_ & _ & _ & _ & Hf & _). assert (Hfi : bsize fi = zlen E) by (destruct Hf as (l & _ & _ & Hs & _); now rewrite zlen_map in Hs).
    replace (length E) with (length (zseq (bsize fi)) * 1)%nat by (rewrite zseq_length_nat, Hfi; unfold zlen; lia).
    refine (for_calls _ _ bt 1 _ (zseq (bsize fi)) L w EL Hb). cbn beta. intros pos x Ex b Hx.
    apply bind_ok in Ex as (f & Ef & Ex). apply bind_ok in Ex as (i & Ei & Ex).
    apply (quick_still_int fi pos b (HK _ (or_introl eq_refl))). intros f' Ef'. rewrite Ef in Ef'. injection Ef' as <-. rewrite Ei. cbn [pbind].
    destruct i as [ix|]; [|discriminate]. injection Ex as <-. exact Hx.
  - unfold csr_iad in EL. unfold csr_gen_t. apply bind_ok in EL as (n & En & EL). rewrite En. cbn [pbind]. destruct HE as (_ & Hl & _).
    destruct sh as [|n' [|m' [|? ?]]]; cbn in Hl; try lia. injection En as <-. cbn [nth].
    rewrite <- HL. replace (count n') with (length (zseq n')) by (rewrite zseq_length_nat; reflexivity).
    clear HL. revert L EL Hb. induction (zseq n') as [|r rows IHr]; intros L EL Hb; cbn [csr_iad_rows for_t] in *; [exact I|].
    apply bind_ok in EL as (x & Ex & EL). apply bind_ok in EL as (y & Ey & EL). apply bind_ok in EL as (l & El & EL). apply bind_ok in EL as (rest & Er & EL).
    injection EL as <-. rewrite map_app, list_sum_app, app_length. cbn [length].
    assert (Ll : length l = length (zrange x y)) by exact (mapM_length _ _ _ El).
    replace (2 * S (length rows) + (length l + length rest) + (list_sum (map w l) + list_sum (map w rest)))%nat
      with (S (S (length (zrange x y) * 1 + list_sum (map w l))) + (2 * length rows + length rest + list_sum (map w rest)))%nat by lia.
    eapply quick_bind.
    + intros _. apply (IHr rest Er). intros z Hz. apply Hb. apply in_or_app. now right.
    + apply (quick_still_int cr r _ (HK _ (or_introl eq_refl))). intros x' Ex'. rewrite Ex in Ex'. injection Ex' as <-.
      apply (quick_still_int cr (r + 1) _ (HK _ (or_introl eq_refl))). intros y' Ey'. rewrite Ey in Ey'. injection Ey' as <-.
      refine (for_calls _ _ bt 1 _ (zrange x y) l w El _); [|intros z Hz; apply Hb; apply in_or_app; now left].
      cbn beta. intros pos z Ez b Hz. apply bind_ok in Ez as (c & Ec & Ez). injection Ez as <-.
      apply (quick_still_int co pos b (HK _ (or_intror (or_introl eq_refl)))). intros c' Ec'. rewrite Ec in Ec'. injection Ec' as <-. exact Hz.
Qed.

Lemma value_quick value sh j : (match value with SrcSeq _ => True | SrcSto t => valid h0 t /\ shape_of t = sh /\ forall a, In a (index_addrs t) -> K a end) ->
  in_box j sh -> quick (get_value_t value j) (value_cost value).
Proof.
  destruct value as [v|t]; cbn [get_value_t value_cost]; [intros; exact I|]. intros (Ht & <- & HK) Hj. destruct j; [exact I|]. now apply read_quick.
Qed.
Lemma element_quick d r v : elem_data d -> valid h0 d -> in_box r (shape_of d) -> quick (setitem_t d (int_tuple r) (SrcSeq v)) 1.
Proof.
  intros Hd [f Hf] Hr. destruct d as [b|t| | | | |]; try contradiction; cbn [shape_of] in *.
  - cbn [setitem_t]. unfold buffer_setitem_t. destruct (buf_complete_index _) as [[]|]; try exact I. exists O. split; [reflexivity|exact I].
  - destruct Hf as (l & El & S & _). destruct (strided_positions t l (int_tuple r) S (in_box_positive_shape _ _ Hr) (int_tuple_ok r _ (in_box_len _ _ Hr))) as (L & EL & HL & _ & HR & HM).
    cbn [setitem_t]. destruct (normalize_index _ _) as [nix|]; cbn [bind] in *; [|discriminate].
    destruct (index_strided _ _ _ _) as [[[sh st] off]|]; cbn [bind pbind] in *; [|discriminate].
    rewrite int_tuple_shape in HM by (now apply in_box_len). destruct L as [|[j p] [|? ?]]; cbn [map fst cart] in HM; try discriminate. injection HM as ->.
    apply (strided_calls sh st off [([], p)] EL _ (fun _ => 1%nat)). intros x _. unfold put_t. cbn [get_value_t].
    apply quick_pre. intros y _. exists O. split; [reflexivity|exact I].
Qed.
Lemma assign_quick s ix value : valid h0 s -> positive (shape_of s) -> ok_index ix (shape_of s) ->
  match s with SStrided _ => True | _ => slice_writes s /\ slice_shape ix (shape_of s) <> [] end ->
  match value with SrcSeq _ => True | SrcSto t => valid h0 t /\ shape_of t = slice_shape ix (shape_of s) /\ forall a, In a (index_addrs t) -> K a end ->
  (forall a, In a (index_addrs s) -> K a) ->
  quick (setitem_t s ix value) (write_cost s (count (n_elements (slice_shape ix (shape_of s)))) (value_cost value)).
Proof.
  intros [f Hf] Hp Hok Hs Hv HI. set (m := count _). set (c := value_cost value).
  assert (PUT : forall P (w : P -> pyval -> prog unit) j p, in_box j (slice_shape ix (shape_of s)) ->
    (forall x, quick (w p x) 1) -> quick (put_t w value (j, p)) (c + 1)).
  { intros P w j p Hj Hw. unfold put_t. cbn [fst snd]. apply quick_bind; [exact Hw|]. now apply (value_quick value (slice_shape ix (shape_of s))). }
  assert (SPARSE : is_sparse s -> slice_shape ix (shape_of s) <> [] -> quick (setitem_t s ix value) (write_cost s m c)).
  { intros Hsp Hn. assert (HE : exists E, entries h0 s E) by (destruct s; try contradiction; destruct Hf as (E & HE & _); now exists E). destruct HE as (E & HE).
    destruct (sparse_positions h0 s E ix HE Hp Hok Hn) as (L & d & EL & Ed & HL & HN).
    assert (Hu : setitem_t s ix value =
      pbind (Ret (nix <- normalize_index ix (shape_of s) ;;
                  '(sh, st, off) <- index_strided nix (shape_of s) (strides_of s) 0 ;;
                  d <- data_buffer s ;; Ok (sh, st, off, d)))
        (fun '(sh, st, off, d) => slice_gen_t (shape_of s) (sparse_gen_t s) sh st off (put_t (buf_write_t d) value)))
      by (destruct s; try contradiction; reflexivity).
    rewrite Hu. clear Hu. destruct (normalize_index ix (shape_of s)) as [nix|]; cbn [bind] in *; [|discriminate].
    destruct (index_strided _ _ _ _) as [[[sh st] off]|]; cbn [bind] in *; [|discriminate]. rewrite Ed in *. cbn [bind pbind] in *.
    destruct (slice_iad _ _ _ _ _) as [L0|] eqn:ES; cbn [bind] in EL; [|discriminate]. injection EL as ->.
    rewrite (sparse_iad_ok h0 s E HE Hp) in ES. assert (El := sparse_iad_ok h0 s E HE Hp).
    assert (Ln : length (numbered E) = length E) by (unfold numbered; rewrite map_length, zseq_length_nat; unfold zlen; lia).
    assert (L1 : (length L <= length E)%nat) by (rewrite <- Ln; exact (slice_length _ _ _ _ _ _ ES)).
    assert (L2 : (length L <= m)%nat).
    { apply items_bound; [|intros j p Hj; now apply HL in Hj]. apply NoDup_keys; [exact HN|]. intros j p q H1 H2. apply HL in H1 as [_ H1], H2 as [_ H2].
      apply In_numbered in H1 as [B1 H1], H2 as [B2 H2]. assert (N := BuildFacts.ordered_NoDup _ _ (entries_ordered _ _ _ HE)).
      assert (X := epos_at E N (Z.to_nat p)). assert (Y := epos_at E N (Z.to_nat q)). unfold zlen in *. rewrite <- H1 in X. rewrite <- H2 in Y.
      rewrite X in Y by lia. specialize (Y ltac:(lia)). injection Y as Y. lia. }
    eapply quick_mono.
    - apply (slice_calls (write_cost s 0 0) _ _ (numbered E) _ _ _ L (sparse_calls s E _ HE HI El Ln) ES _ (fun _ => c + 1)%nat).
      intros [j p] Hj. apply HL in Hj as [Hj _]. apply PUT; [exact Hj|]. intros x. exists O. split; [reflexivity|exact I].
    - rewrite sum_const. destruct (entries_data h0 s E HE) as (d' & Ed' & Hd & _). rewrite Ed in Ed'. injection Ed' as <-.
      assert (Hc : count (bsize d) = length E) by (destruct Hd as (l & _ & _ & Hs' & _); rewrite zlen_map in Hs'; unfold count, zlen in *; lia).
      assert (length L * (c + 1) <= Nat.min (length E) m * (c + 1))%nat by (apply Nat.mul_le_mono_r; lia).
      destruct s; try contradiction; cbn [data_buffer] in Ed; injection Ed as ->; cbn [write_cost]; rewrite Hc; rewrite Nat.min_0_r; lia. }
  destruct s as [b|t|sh ind d|sh fi d|sh cr co d|sh ch a b c0 d|sh rd rsh rs ro d]; try (apply SPARSE; [exact I|apply Hs]).
  - destruct Hs as [[] _].
  - clear SPARSE. cbn [shape_of write_cost] in *. destruct Hf as (l & El & S & _). destruct (strided_positions t l ix S Hp Hok) as (L & EL & HL & HN & HR & HM).
    cbn [setitem_t]. destruct (normalize_index _ _) as [nix|]; cbn [bind] in *; [|discriminate].
    destruct (index_strided _ _ _ _) as [[[sh st] off]|]; cbn [bind pbind] in *; [|discriminate].
    apply (quick_mono _ (0 + list_sum (map (fun _ => c + 1)%nat L))).
    + apply (strided_calls sh st off L EL). intros [j p] Hj. apply HL in Hj as [Hj _]. apply PUT; [exact Hj|]. intros x. exists O. split; [reflexivity|exact I].
    + rewrite sum_const. apply Nat.mul_le_mono_r. apply items_bound; [|intros j p Hj; now apply HL in Hj]. apply NoDup_keys; [exact HN|].
      intros j p q H1 H2. apply HL in H1 as [_ H1], H2 as [_ H2]. lia.
  - destruct Hs as [[] _].
  - clear SPARSE. cbn [shape_of index_addrs write_cost] in *. destruct Hs as [Hw Hn]. destruct Hf as (g & Hg & Hd & _).
    destruct (dm_positions sh rd rsh rs ro _ ix Hd Hp Hok Hn) as (L & EL & HL & HN & HB).
    assert (He : elem_data d) by (destruct d; try contradiction; exact I).
    cbn [setitem_t]. destruct (normalize_index _ _) as [nix|]; cbn [bind] in *; [|discriminate].
    destruct (index_strided _ _ _ _) as [[[sh' st] off]|]; cbn [bind pbind] in *; [|discriminate].
    destruct (dm_iad sh rd rsh rs ro) as [l|] eqn:El; [|unfold slice_iad in EL; destruct (init_diophantine _ _); discriminate].
    apply (quick_mono _ (0 + list_sum (map (fun _ => c + 1)%nat L))).
    + apply (slice_calls 0 _ _ l _ _ _ L (dm_calls sh rd rsh rs ro l El) EL). intros [j p] Hj. rewrite Forall_forall in HB. specialize (HB _ Hj). cbn [snd] in HB.
      apply HL in Hj as [Hj _]. apply PUT; [exact Hj|]. intros x. apply element_quick; [exact He|now exists g|exact HB].
    + rewrite sum_const. apply Nat.mul_le_mono_r. apply items_bound; [|intros j p Hj; now apply HL in Hj]. apply NoDup_keys; [exact HN|].
      intros j p q H1 H2. apply HL in H1 as [_ ->], H2 as [_ ->]. reflexivity.
Qed.
Lemma thread_quick : forall ops, Forall (flow_op h0) ops ->
  (forall o s a, In o ops -> In s (arrays_of o) -> In a (index_addrs s) -> K a) -> quick (thread ops) (cost ops).
Proof.
  induction ops as [|o ops IH]; intros HF HI; cbn [thread]; [exact I|]. inversion HF as [|? ? Fo Fr]; subst.
  assert (I1 := IH Fr (fun o s a Ho => HI o s a (or_intror Ho))). unfold cost in *. cbn [map]. change (list_sum (?a :: ?b)) with (a + list_sum b)%nat.
  destruct o as [s i|s ix value]; cbn [flow_op op_cost] in *.
  - destruct Fo as [V1 Hi]. apply quick_bind.
    + intros x. apply quick_then; [|exact I1]. intros xs. exact I.
    + apply read_quick; auto. intros a Ha. apply (HI (Read s i) s a); [now left|now left|exact Ha].
  - destruct Fo as (V1 & P1 & O1 & T1 & S1).
    assert (Hs : In s (arrays_of (Assign s ix value))) by (destruct value; now left).
    apply quick_bind; [intros _; exact I1|]. apply assign_quick; auto.
    + destruct value as [v|t]; [exact I|]. destruct S1 as (S1 & S2 & S3). split; [exact S1|]. split; [exact S2|].
      intros a Ha. apply (HI (Assign s ix (SrcSto t)) t a); [now left|right; now left|exact Ha].
    + intros a Ha. apply (HI (Assign s ix value) s a); [now left|exact Hs|exact Ha].
Qed.

(** * Schedules *)
Definition unchanged (h : heap) : Prop := forall a, K a -> nth_error h a = nth_error h0 a.
Definition spares {A} (m : prog A) : Prop := within (fun _ _ => True) (fun a _ => ~ K a) m.
Lemma advance_spares {A} h (m : prog A) h' m' : unchanged h -> spares m -> advance h m = (h', m') -> unchanged h' /\ spares m'.
Proof.
  intros Hh Hm E. destruct m as [r|a p k|a p v k]; cbn [advance spares within] in *.
  - injection E as <- <-. split; [exact Hh|exact I].
  - destruct (hget h a p); injection E as <- <-; (split; [exact Hh|]); [apply Hm|exact I].
  - destruct (hput h a p v) as [h1|] eqn:E1; injection E as <- <-; [|split; [exact Hh|exact I]]. destruct Hm as [Ha Hk]. split; [|exact Hk].
    intros b Hb. rewrite <- (Hh b Hb). destruct (hput_ok _ _ _ _ _ E1) as (l & El & _ & ->). apply set_nth_error_other. intros ->. now apply Ha.
Qed.
Lemma advance_quick {A} h (m : prog A) h' m' n : unchanged h -> quick m (S n) -> advance h m = (h', m') -> quick m' n.
Proof.
  intros Hh Hm E. destruct m as [r|a p k|a p v k]; cbn [advance quick] in *.
  - injection E as <- <-. exact I.
  - destruct Hm as (n' & En & Hm). injection En as <-. destruct (hget h a p) as [v|] eqn:Ev; injection E as <- <-; [|exact I]. apply Hm. intros Ha.
    unfold hget, cell in *. now rewrite <- (Hh a Ha).
  - destruct Hm as (n' & En & Hm). injection En as <-. destruct (hput h a p v); injection E as <- <-; [exact Hm|exact I].
Qed.
Lemma quick_zero {A} (m : prog A) : quick m 0 -> exists r, m = Ret r.
Proof. destruct m as [r|a p k|a p v k]; cbn [quick]; [now exists r| |]; intros (n & E & _); discriminate. Qed.
Lemma exec_quick {A} j : forall sched h (ts : list (prog A)) h' ts' t n, unchanged h -> Forall spares ts -> nth_error ts j = Some t -> quick t n ->
  (n <= turns j sched)%nat -> exec sched h ts = (h', ts') -> exists r, nth_error ts' j = Some (Ret r).
Proof.
  induction sched as [|i sched IH]; intros h ts h' ts' t n Hh HF Ej Hq Hn E; cbn [exec turns count_occ] in *.
  - injection E as <- <-. assert (n = 0%nat) by lia. subst n. destruct (quick_zero t Hq) as (r & ->). now exists r.
  - destruct (Nat.eq_dec i j) as [->|Hij].
    + rewrite Ej in E. destruct (advance h t) as [h1 t1] eqn:E1.
      assert (Hs : spares t) by (rewrite Forall_forall in HF; apply HF; eapply nth_error_In; eassumption).
      destruct (advance_spares h t h1 t1 Hh Hs E1) as [X1 X2].
      assert (Hq' : quick t (S (turns j sched))) by (eapply quick_mono; [exact Hq|exact Hn]).
      eapply (IH h1 (set_nth j t1 ts) h' ts' t1 (turns j sched)); [exact X1|apply Forall_set_nth; assumption| |eapply advance_quick; [exact Hh|exact Hq'|exact E1]|lia|exact E].
      rewrite set_nth_nth, Nat.eqb_refl, Ej. reflexivity.
    + destruct (nth_error ts i) as [u|] eqn:Ei; [|eapply IH; eassumption]. destruct (advance h u) as [h1 u1] eqn:E1.
      assert (Hs : spares u) by (rewrite Forall_forall in HF; apply HF; eapply nth_error_In; eassumption).
      destruct (advance_spares h u h1 u1 Hh Hs E1) as [X1 X2].
      eapply (IH h1 (set_nth i u1 ts) h' ts' t n); [exact X1|apply Forall_set_nth; assumption| |exact Hq|exact Hn|exact E].
      rewrite set_nth_nth. destruct (Nat.eqb_spec i j); [congruence|exact Ej].
Qed.
End Quick.

Lemma thread_spares (K : nat -> Prop) : forall ops, (forall s ix value, In (Assign s ix value) ops -> ~ K (data_addr s)) -> spares K (thread ops).
Proof.
  intros ops H. eapply within_mono; [| |apply (stays_thread ops)]; [auto|]. cbn [by_lists fw]. intros a _ Ha.
  unfold written in Ha. apply in_flat_map in Ha as (o & Ho & Ha). destruct o as [s i|s ix value]; [destruct Ha|]. destruct Ha as [<-|[]].
  exact (H s ix value Ho).
Qed.

(** Any number of threads work on arrays of all classes that may share their data
    lists.  A thread that gets as many turns as its statements cost has ended, and
    without an error, whatever the other threads have done or left undone until
    then, and however the turns are distributed. *)
Theorem C102_no_waiting : forall programs h sched h' ts' j ops,
  Forall (Forall (flow_op h)) programs -> indices_untouched programs ->
  exec sched h (map thread programs) = (h', ts') ->
  nth_error programs j = Some ops -> (cost ops <= turns j sched)%nat ->
  exists xs, nth_error ts' j = Some (Ret (Ok xs)).
Proof.
  intros programs h sched h' ts' j ops F HI H Ej Hn. set (K := untouched programs).
  assert (Hin : In ops programs) by (eapply nth_error_In; eassumption).
  assert (Fo : Forall (flow_op h) ops) by (rewrite Forall_forall in F; now apply F).
  destruct (exec_quick h K j sched h (map thread programs) h' ts' (thread ops) (cost ops)) as (r & Er); auto.
  - intros a _. reflexivity.
  - apply Forall_forall. intros t Ht. apply in_map_iff in Ht as (ops' & <- & Ho). apply thread_spares.
    intros s ix value Hs Hk. apply (Hk s ix value); [|reflexivity]. now exists ops'.
  - now apply map_nth_error.
  - apply thread_quick; [exact Fo|]. intros o s a Ho. apply HI. now exists ops.
  - destruct r as [xs|e]; [now exists xs|]. exfalso.
    set (V := fun (_ : nat) (_ : Z) (_ : pyval) => True).
    set (Q := fun (_ : list op) (r : res (list pyval)) => match r with Ok _ => True | Raise _ => False end).
    destruct (exec_safe h K V (fun _ _ => True) V sched h (map thread programs) (map Q programs) h' ts') as [_ X2]; [| |exact H|].
    + split; [|reflexivity]. split; [reflexivity|]. intros; exact I.
    + assert (G : forall l, (forall ops, In ops l -> In ops programs) -> Forall (Forall (flow_op h)) l ->
        Forall2 (fun (Q0 : res (list pyval) -> Prop) t => safe h K V (fun _ _ => True) V Q0 t) (map Q l) (map thread l)).
      { induction l as [|ops1 l IH]; intros Hl Fl; [constructor|]. inversion Fl as [|? ? Fo1 Fr]; subst. cbn [map]. constructor.
        - assert (St : forall o, In o ops1 -> stated programs o) by (intros o Ho; exists ops1; split; [apply Hl; now left|exact Ho]).
          assert (X : safe h K V (fun _ _ => True) V (fun r => match r with Ok xs => reads_give (gives h V) ops1 xs | Raise _ => False end) (thread ops1)).
          { apply thread_safe; [eapply Forall_impl; [apply flow_or|exact Fo1]|..|exact (fun _ _ _ _ _ => I)].
            + intros o s a Ho. apply (HI o). now apply St.
            + intros s ix value Ho Hk. now apply (Hk s ix value (St _ Ho)).
            + intros. split; exact I. }
          revert X. clear. generalize (thread ops1). intros m. induction m as [r|a p k IH|a p v k IH]; cbn [safe].
          + destruct r; [intros; exact I|auto].
          + intros [(H1 & HR & H2)|(H1 & v & H2 & H3)]; [left|right]; (split; [assumption|]); [split; [exact HR|]; intros v Hv; apply IH; now apply H2|]. exists v. split; [exact H2|]. now apply IH.
          + intros (H1 & H2 & H3 & H4). auto.
        - apply IH; [|exact Fr]. intros ops' Ho. apply Hl. now right. }
      now apply G.
    + destruct (Forall2_nth _ _ _ X2 j _ Er) as (Q0 & EQ & HQ). rewrite nth_error_map, Ej in EQ. injection EQ as <-. exact HQ.
Qed.
Print Assumptions C102_no_waiting.

(** Schedules that give each thread that many turns let all of them end, which is
    the assumption of C94 to C100. *)
Theorem C102_all_end : forall programs h sched h' ts',
  Forall (Forall (flow_op h)) programs -> indices_untouched programs ->
  exec sched h (map thread programs) = (h', ts') ->
  (forall j ops, nth_error programs j = Some ops -> (cost ops <= turns j sched)%nat) ->
  exists xss, ts' = map Ret (map Ok xss).
Proof.
  intros programs h sched h' ts' F HI H Hn.
  assert (L : length ts' = length programs).
  { rewrite <- (map_length thread programs). clear - H. revert h H. generalize (map thread programs). induction sched as [|j sched IH]; intros ts h H; cbn [exec] in H.
    - now injection H as _ <-.
    - destruct (nth_error ts j) as [t|]; [|now apply (IH _ h)]. destruct (advance h t) as [h1 t1]. apply IH in H. now rewrite set_nth_length in H. }
  assert (A : forall j t, nth_error ts' j = Some t -> exists xs, t = Ret (Ok xs)).
  { intros j t Et. destruct (nth_error programs j) as [ops|] eqn:Ej.
    - destruct (C102_no_waiting programs h sched h' ts' j ops F HI H Ej (Hn j ops Ej)) as (xs & E). rewrite Et in E. injection E as ->. now exists xs.
    - apply nth_error_None in Ej. assert (j < length ts')%nat by (apply nth_error_Some; congruence). lia. }
  clear - A. induction ts' as [|t ts IH]; [now exists []|]. destruct (A O t eq_refl) as (xs & ->). destruct IH as (xss & ->); [intros j t Et; now apply (A (S j) t)|].
  now exists (xs :: xss).
Qed.
Print Assumptions C102_all_end.

(** [k] rounds of the search are enough for fewer than [2 ^ k] stored elements. *)
Theorem C102_rounds : forall n k, 0 < n -> (halvings n <= k)%nat <-> n < 2 ^ Z.of_nat k.
Proof.
  intros n k Hn. unfold halvings. destruct (Z.leb_spec n 0); [lia|]. rewrite Z.log2_lt_pow2 by exact Hn. pose proof (Z.log2_nonneg n). lia.
Qed.
Print Assumptions C102_rounds.

(** * What assignments to sparse arrays take at least *)
Section Slow.
Variable h0 : heap.
Variable K : nat -> Prop.
(** The program does not end without an error before it has made [n] accesses. *)
Fixpoint slow {A} (m : prog A) (n : nat) : Prop :=
  match m with
  | Ret (Ok _) => n = O
  | Ret (Raise _) => True
  | Get a p k => forall v, (K a -> hget h0 a p = Ok v) -> slow (k v) (pred n)
  | Put a p v k => slow k (pred n)
  end.
Lemma slow_zero {A} (m : prog A) : slow m 0.
Proof. induction m as [[x|e]|a p k IH|a p v k IH]; cbn [slow pred]; auto. Qed.
Lemma slow_mono {A} (m : prog A) : forall n n', slow m n -> (n' <= n)%nat -> slow m n'.
Proof.
  induction m as [[x|e]|a p k IH|a p v k IH]; intros n n' H L; cbn [slow] in *; [lia|exact I| |].
  - intros v Hv. apply (IH v (pred n)); [now apply H|lia].
  - apply (IH (pred n)); [exact H|lia].
Qed.
Lemma slow_bind {A B} (m : prog A) (f : A -> prog B) c : (forall x, slow (f x) c) -> forall n, slow m n -> slow (pbind m f) (n + c).
Proof.
  intros Hf. induction m as [[x|e]|a p k IH|a p v k IH]; intros n H; cbn [slow pbind] in *.
  - subst n. apply Hf.
  - exact I.
  - intros v Hv. apply (slow_mono _ (pred n + c)); [apply IH; now apply H|lia].
  - apply (slow_mono _ (pred n + c)); [now apply IH|lia].
Qed.
Lemma slow_first {A B} (m : prog A) (f : A -> prog B) n : slow m n -> slow (pbind m f) n.
Proof. intros H. rewrite <- (Nat.add_0_r n). apply slow_bind; [|exact H]. intros x. apply slow_zero. Qed.
Lemma slow_pre {A B} (r : res A) (f : A -> prog B) n : (forall x, r = Ok x -> slow (f x) n) -> slow (pbind (Ret r) f) n.
Proof. destruct r as [x|e]; cbn [pbind]; [auto|]. intros _. exact I. Qed.
Lemma slow_still_int b i c : K (baddr b) -> forall B (f : Z -> prog B),
  (forall x, buf_int h0 b i = Ok x -> slow (f x) c) -> slow (pbind (buf_int_t b i) f) (S c).
Proof.
  intros Hb B f Hf. unfold buf_int_t, buf_get_t. cbn [pbind slow pred]. intros v Hv. specialize (Hv Hb).
  destruct (as_int v) as [x|e] eqn:Ex; cbn [pbind]; [|exact I]. apply Hf. pose proof (reads_buf_int b i h0) as R. unfold buf_int_t, buf_get_t in R. cbn [pbind run] in R.
  rewrite Hv in R. cbn [pbind run] in R. rewrite Ex in R. cbn [run] in R. congruence.
Qed.
Lemma slow_int b i : slow (buf_int_t b i) 1.
Proof. unfold buf_int_t, buf_get_t. cbn [pbind slow pred]. intros v _. destruct (as_int v); [reflexivity|exact I]. Qed.
Lemma slow_strided_int t i : slow (strided_int_t t i) 1.
Proof.
  unfold strided_int_t, strided_elem_t. destruct (normalize_index _ _) as [nix|]; cbn [pbind]; [|exact I]. destruct (is_element_index _ _); [|exact I].
  destruct (get_position _ _ _) as [p|]; cbn [pbind]; [|exact I]. cbn [buf_get_t pbind slow pred]. intros v _. destruct (as_int v); [reflexivity|exact I].
Qed.
Lemma slow_for {X} (bt : X -> prog unit) c : (forall x, slow (bt x) c) -> forall l, slow (for_t l bt) (length l * c).
Proof.
  intros Hb. induction l as [|x l IH]; cbn [for_t length]; [reflexivity|]. change (S (length l) * c)%nat with (c + length l * c)%nat.
  apply slow_bind; [intros _; exact IH|apply Hb].
Qed.
Lemma scan_slow s E L bt : entries h0 s E -> (forall a, In a (index_addrs s) -> K a) -> sparse_iad h0 s = Ok L -> length L = length E ->
  slow (sparse_gen_t s bt) (write_cost s 0 0).
Proof.
  intros HE HK EL HL. destruct (entries_data h0 s E HE) as (d' & Ed & Hd & _).
  assert (Hn : bsize d' = zlen E) by (destruct Hd as (l & _ & _ & Hs & _); now rewrite zlen_map in Hs).
  assert (Hc : count (bsize d') = length E) by (unfold count, zlen in *; lia).
  destruct s as [b|t|sh ind d|sh fi d|sh cr co d|sh ch a b c d|sh rd rsh rs ro d]; try contradiction; cbn [sparse_iad sparse_gen_t index_addrs data_buffer] in *;
    injection Ed as ->; cbn [write_cost]; rewrite Hc; rewrite Nat.min_0_r, Nat.mul_0_l, Nat.add_0_r.
  - unfold coo_gen_t. destruct HE as (_ & _ & _ & _ & Es & _). rewrite Es. change (pyget [zlen sh; zlen E] 1) with (Ok (zlen E)).
    change (pyget [zlen sh; zlen E] 0) with (Ok (zlen sh)). cbn [pbind].
    replace (length E) with (length (zseq (zlen E))) by (rewrite zseq_length_nat; unfold zlen; lia). apply slow_for. intros pos. apply slow_first.
    replace (rank sh) with (length (zseq (zlen sh))) by (rewrite zseq_length_nat; unfold zlen, rank; lia).
    generalize (zseq (zlen sh)). intros js. induction js as [|j js IHj]; cbn [mapM_t length]; [reflexivity|].
    change (S (length js)) with (1 + length js)%nat. apply slow_bind; [|apply slow_strided_int]. intros y. now apply slow_first.
  - unfold flatcoo_gen_t. apply slow_pre. intros sd _.
    destruct HE as (_ & _ & _ & _ & Hf & _). assert (Hfi : bsize fi = zlen E) by (destruct Hf as (l & _ & _ & Hs & _); now rewrite zlen_map in Hs).
    replace (length E) with (length (zseq (bsize fi)) * 1)%nat by (rewrite zseq_length_nat, Hfi; unfold zlen; lia).
    apply slow_for. intros pos. apply slow_first. apply slow_int.
  - unfold csr_iad in EL. unfold csr_gen_t. apply bind_ok in EL as (n & En & EL). rewrite En. cbn [pbind]. destruct HE as (_ & Hl & _).
    destruct sh as [|n' [|m' [|? ?]]]; cbn in Hl; try lia. injection En as <-. cbn [nth].
    rewrite <- HL. replace (count n') with (length (zseq n')) by (rewrite zseq_length_nat; reflexivity).
    clear HL. revert L EL. induction (zseq n') as [|r rows IHr]; intros L EL; cbn [csr_iad_rows for_t] in *; [now injection EL as <-|].
    apply bind_ok in EL as (x & Ex & EL). apply bind_ok in EL as (y & Ey & EL). apply bind_ok in EL as (l & El & EL). apply bind_ok in EL as (rest & Er & EL).
    injection EL as <-. rewrite app_length. cbn [length].
    assert (Ll : length l = length (zrange x y)) by exact (mapM_length _ _ _ El).
    replace (2 * S (length rows) + (length l + length rest))%nat
      with (S (S (length (zrange x y) * 1)) + (2 * length rows + length rest))%nat by lia.
    apply slow_bind; [intros _; now apply IHr|].
    apply (slow_still_int cr r _ (HK _ (or_introl eq_refl))). intros x' Ex'. rewrite Ex in Ex'. injection Ex' as <-.
    apply (slow_still_int cr (r + 1) _ (HK _ (or_introl eq_refl))). intros y' Ey'. rewrite Ey in Ey'. injection Ey' as <-.
    apply slow_for. intros pos. apply slow_first. apply slow_int.
Qed.
Lemma assign_slow s ix value : valid h0 s -> positive (shape_of s) -> (forall a, In a (index_addrs s) -> K a) -> slow (setitem_t s ix value) (write_cost s 0 0).
Proof.
  intros [f Hf] Hp HI.
  assert (SPARSE : is_sparse s -> slow (setitem_t s ix value) (write_cost s 0 0)).
  { intros Hsp. assert (HE : exists E, entries h0 s E) by (destruct s; try contradiction; destruct Hf as (E & HE & _); now exists E). destruct HE as (E & HE).
    assert (El := sparse_iad_ok h0 s E HE Hp).
    assert (Ln : length (numbered E) = length E) by (unfold numbered; rewrite map_length, zseq_length_nat; unfold zlen; lia).
    assert (X : forall bt, slow (sparse_gen_t s bt) (write_cost s 0 0)) by (intros bt; exact (scan_slow s E _ bt HE HI El Ln)).
    assert (Hu : setitem_t s ix value =
      pbind (Ret (nix <- normalize_index ix (shape_of s) ;;
                  '(sh, st, off) <- index_strided nix (shape_of s) (strides_of s) 0 ;;
                  d <- data_buffer s ;; Ok (sh, st, off, d)))
        (fun '(sh, st, off, d) => slice_gen_t (shape_of s) (sparse_gen_t s) sh st off (put_t (buf_write_t d) value)))
      by (destruct s; try contradiction; reflexivity).
    rewrite Hu. apply slow_pre. intros [[[sh st] off] d] _. unfold slice_gen_t. apply slow_pre. intros sd _. apply X. }
  destruct s; try (apply SPARSE; exact I); apply slow_zero.
Qed.
(** Going through the indices of a sparse array. *)
Definition scan (o : op) : nat := match o with Read _ _ => 0 | Assign s _ _ => write_cost s 0 0 end.
Lemma thread_slow : forall ops, Forall (flow_op h0) ops ->
  (forall o s a, In o ops -> In s (arrays_of o) -> In a (index_addrs s) -> K a) -> slow (thread ops) (list_sum (map scan ops)).
Proof.
  induction ops as [|o ops IH]; intros HF HI; cbn [thread]; [reflexivity|]. inversion HF as [|? ? Fo Fr]; subst.
  assert (I1 := IH Fr (fun o s a Ho => HI o s a (or_intror Ho))). cbn [map]. change (list_sum (?a :: ?b)) with (a + list_sum b)%nat.
  destruct o as [s i|s ix value]; cbn [flow_op scan] in *.
  - apply slow_bind; [|apply slow_zero]. intros x. now apply slow_first.
  - destruct Fo as (V1 & P1 & _). apply slow_bind; [intros _; exact I1|]. apply assign_slow; auto.
    intros a Ha. apply (HI (Assign s ix value) s a); [now left|destruct value; now left|exact Ha].
Qed.
Lemma advance_slow {A} h (m : prog A) h' m' n : unchanged h0 K h -> slow m n -> advance h m = (h', m') -> slow m' (pred n).
Proof.
  intros Hh Hm E. destruct m as [[x|e]|a p k|a p v k]; cbn [advance slow] in *.
  - injection E as <- <-. cbn [slow]. subst n. reflexivity.
  - injection E as <- <-. exact I.
  - destruct (hget h a p) as [v|] eqn:Ev; injection E as <- <-; [|exact I]. apply Hm. intros Ha.
    unfold hget, cell in *. now rewrite <- (Hh a Ha).
  - destruct (hput h a p v); injection E as <- <-; [exact Hm|exact I].
Qed.
Lemma exec_slow {A} j : forall sched h (ts : list (prog A)) h' ts' t n x, unchanged h0 K h -> Forall (spares K) ts -> nth_error ts j = Some t -> slow t n ->
  exec sched h ts = (h', ts') -> nth_error ts' j = Some (Ret (Ok x)) -> (n <= turns j sched)%nat.
Proof.
  induction sched as [|i sched IH]; intros h ts h' ts' t n x Hh HF Ej Hq E Ex; cbn [exec turns count_occ] in *.
  - injection E as <- <-. rewrite Ej in Ex. injection Ex as ->. cbn [slow] in Hq. lia.
  - destruct (Nat.eq_dec i j) as [->|Hij].
    + rewrite Ej in E. destruct (advance h t) as [h1 t1] eqn:E1.
      assert (Hs : spares K t) by (rewrite Forall_forall in HF; apply HF; eapply nth_error_In; eassumption).
      destruct (advance_spares h0 K h t h1 t1 Hh Hs E1) as [X1 X2].
      assert (Y : (pred n <= turns j sched)%nat); [|unfold turns in Y; lia].
      eapply (IH h1 (set_nth j t1 ts) h' ts' t1 (pred n) x); [exact X1|apply Forall_set_nth; assumption| |exact (advance_slow h t h1 t1 n Hh Hq E1)|exact E|exact Ex].
      rewrite set_nth_nth, Nat.eqb_refl, Ej. reflexivity.
    + destruct (nth_error ts i) as [u|] eqn:Ei; [|eapply IH; eassumption]. destruct (advance h u) as [h1 u1] eqn:E1.
      assert (Hs : spares K u) by (rewrite Forall_forall in HF; apply HF; eapply nth_error_In; eassumption).
      destruct (advance_spares h0 K h u h1 u1 Hh Hs E1) as [X1 X2].
      eapply (IH h1 (set_nth i u1 ts) h' ts' t n x); [exact X1|apply Forall_set_nth; assumption| |exact Hq|exact E|exact Ex].
      rewrite set_nth_nth. destruct (Nat.eqb_spec i j); [congruence|exact Ej].
Qed.
End Slow.

(** A thread that has ended without an error has gone through all indices of the
    sparse arrays it assigned to, however small the slices were. *)
Theorem C102_scan : forall programs h sched h' ts' j ops xs,
  Forall (Forall (flow_op h)) programs -> indices_untouched programs ->
  exec sched h (map thread programs) = (h', ts') ->
  nth_error programs j = Some ops -> nth_error ts' j = Some (Ret (Ok xs)) ->
  (list_sum (map scan ops) <= turns j sched)%nat.
Proof.
  intros programs h sched h' ts' j ops xs F HI H Ej Ex. set (K := untouched programs).
  assert (Hin : In ops programs) by (eapply nth_error_In; eassumption).
  assert (Fo : Forall (flow_op h) ops) by (rewrite Forall_forall in F; now apply F).
  eapply (exec_slow h K j sched h (map thread programs) h' ts' (thread ops)); [| | | |exact H|exact Ex].
  - intros a _. reflexivity.
  - apply Forall_forall. intros t Ht. apply in_map_iff in Ht as (ops' & <- & Ho). apply thread_spares.
    intros s ix value Hs Hk. apply (Hk s ix value); [|reflexivity]. now exists ops'.
  - now apply map_nth_error.
  - apply thread_slow; [exact Fo|]. intros o s a Ho. apply HI. now exists ops.
Qed.
Print Assumptions C102_scan.

(** The programs of C100_case meet the hypotheses.  Their costs are reached: the
    first thread needs all its turns.  The last one saves one: it does not find [3]. *)
Example C102_case :
  let programs := [[Assign sparse_view everything (SrcSeq (VSeq (map VInt [1; 2; 3; 4; 5; 6])))];
                   [Assign dense_view everything (SrcSto reversed_view)];
                   [Read sparse_view [5]; Read sparse_view [3]; Read dense_view [0]]] in
  map cost programs = [6; 6; 7]%nat /\ map (fun ops => list_sum (map scan ops)) programs = [3; 0; 0]%nat
  /\ nth_error (snd (exec (repeat 0 6)%nat shared_lists (map thread programs))) 0 = Some (Ret (Ok []))
  /\ (forall r, nth_error (snd (exec (repeat 0 5)%nat shared_lists (map thread programs))) 0 <> Some (Ret r))
  /\ nth_error (snd (exec (repeat 2 6)%nat shared_lists (map thread programs))) 2 = Some (Ret (Ok [VInt 30; VInt 0; VInt 10])).
Proof. cbv zeta. split; [reflexivity|]. split; [reflexivity|]. split; [vm_compute; reflexivity|]. split; [|vm_compute; reflexivity]. intros r. vm_compute. intros E. discriminate E. Qed.

(** Reading elements through the representation; the binary searches. *)
From Coq Require Import Sorting.Sorted Permutation ZifyBool.
From Verif Require Import Py SliceTools Basics Storage Spec SliceFacts IndexFacts
  CompressFacts ReduceFacts SolveFacts Repr.

(** * Heaps *)
Lemma extends_refl h : extends h h.
Proof. exists []. now rewrite app_nil_r. Qed.
Lemma extends_trans h1 h2 h3 : extends h1 h2 -> extends h2 h3 -> extends h1 h3.
Proof. intros [t ->] [t' ->]. exists (t ++ t'). now rewrite app_assoc. Qed.
Lemma extends_alloc h l : extends h (h ++ [l]).
Proof. now exists [l]. Qed.
Lemma extends_cell h h' a l : extends h h' -> nth_error h a = Some l -> nth_error h' a = Some l.
Proof.
  intros [t ->] H. rewrite nth_error_app1; [assumption|]. apply nth_error_Some. congruence.
Qed.
Lemma extends_length h h' : extends h h' -> (length h <= length h')%nat.
Proof. intros [t ->]. rewrite app_length. lia. Qed.

Lemma cell_ok h a l : nth_error h a = Some l -> cell h a = Ok l.
Proof. unfold cell. now intros ->. Qed.

Lemma nth_error_new (h : heap) l : nth_error (h ++ [l]) (length h) = Some l.
Proof. rewrite nth_error_app2 by lia. now rewrite Nat.sub_diag. Qed.

(** * Buffers *)
Lemma holds_frame h h' b vs : nth_error h' (baddr b) = nth_error h (baddr b) ->
  holds h b vs -> holds h' b vs.
Proof. intros E (l & Hl & H). exists l. split; [congruence|exact H]. Qed.

Lemma holds_extends h h' b vs : extends h h' -> holds h b vs -> holds h' b vs.
Proof.
  intros E (l & Hl & H). exists l. split; [now apply (extends_cell h)|exact H].
Qed.

Lemma nth_skipn {A} (l : list A) a k d : nth k (skipn a l) d = nth (a + k) l d.
Proof. revert l. induction a as [|a IH]; intros l; [reflexivity|]. destruct l; [now destruct k|apply IH]. Qed.

Lemma nth_firstn {A} (l : list A) n k d : (k < n)%nat -> nth k (firstn n l) d = nth k l d.
Proof.
  revert l k. induction n as [|n IH]; intros l k Hk; [lia|]. destruct l; [now destruct k|].
  destruct k; [reflexivity|]. cbn. apply IH. lia.
Qed.

Lemma holds_nth h b vs l i : nth_error h (baddr b) = Some l -> holds h b vs -> 0 <= i < zlen vs ->
  nth (Z.to_nat (boff b + i)) l VNone = nth (Z.to_nat i) vs VNone.
Proof.
  intros El (l' & Hl & Ho & Hs & He & Hw) Hi. assert (l' = l) by congruence. subst l'.
  rewrite <- Hw. rewrite nth_firstn by (unfold zlen in Hi; lia). rewrite nth_skipn.
  f_equal. lia.
Qed.

Lemma buf_get_ok h b vs i : holds h b vs -> 0 <= i < zlen vs ->
  buf_get h b i = Ok (nth (Z.to_nat i) vs VNone).
Proof.
  intros H Hi. pose proof H as (l & Hl & Ho & Hs & He & Hw).
  unfold buf_get. rewrite (cell_ok _ _ _ Hl). cbn [bind].
  rewrite (pyget_ok l (boff b + i) VNone) by lia. f_equal. now apply (holds_nth h b).
Qed.

Lemma buf_int_ok h b zs i : holds h b (map VInt zs) -> 0 <= i < zlen zs ->
  buf_int h b i = Ok (znth i zs).
Proof.
  intros H Hi. unfold buf_int. rewrite (buf_get_ok h b _ i H) by now rewrite zlen_map.
  cbn [bind]. rewrite nth_indep with (d' := VInt 0) by (rewrite map_length; unfold zlen in Hi; lia).
  now rewrite map_nth.
Qed.

Lemma new_buffer_ok h vs u :
  new_buffer h vs u = Ok (Buf (zlen vs) 0 (length h) u, h ++ [vs]).
Proof.
  unfold new_buffer, alloc, mk_buffer. rewrite (cell_ok _ _ _ (nth_error_new h vs)). cbn [bind].
  unfold assert_. replace (0 + zlen vs <=? zlen vs) with true by lia. reflexivity.
Qed.

Lemma holds_new h vs u : holds (h ++ [vs]) (Buf (zlen vs) 0 (length h) u) vs.
Proof.
  exists vs. cbn [baddr boff bsize]. split; [apply nth_error_new|]. repeat split; try lia.
  cbn [Z.to_nat skipn]. apply firstn_all.
Qed.

(** * Element indices *)
Lemma in_box_positive_shape i sh : in_box i sh -> positive sh.
Proof. apply in_box_positive. Qed.

Lemma is_element_ints i sh : length i = length sh -> is_element_index (map NInt i) sh = true.
Proof.
  intros H. unfold is_element_index, zlen. rewrite map_length, H, Z.eqb_refl. cbn [andb].
  rewrite forallb_forall. intros x Hx. apply in_map_iff in Hx. now destruct Hx as (z & <- & _).
Qed.

Lemma int_items_ints i : int_items (map NInt i) = i.
Proof. induction i as [|x i IH]; cbn; congruence. Qed.

Lemma get_position_ok i sh st : length i = length sh -> length st = length sh ->
  get_position i sh st = Ok (zdot i st).
Proof.
  revert i st. induction sh as [|n sh IH]; intros [|x i] [|s st] H1 H2; cbn in H1, H2; try lia;
    cbn [get_position zdot]; [reflexivity|].
  rewrite IH by lia. reflexivity.
Qed.

Lemma normalize_ints i sh : in_box i sh -> normalize_index (int_tuple i) sh = Ok (map NInt i).
Proof. apply normalize_int_tuple. Qed.

(** Strided *)
Lemma strided_elem h t l i : nth_error h (baddr (sdata t)) = Some l -> strided_ok t l ->
  in_box i (sshape t) ->
  strided_getitem h t (int_tuple i) = Ok (IVal (nth (Z.to_nat (spos t i)) l VNone)).
Proof.
  intros Hl Ht Hi. unfold strided_getitem. rewrite normalize_ints by assumption. cbn [bind].
  rewrite is_element_ints by now apply in_box_len. rewrite int_items_ints.
  rewrite get_position_ok; [|now apply in_box_len|apply (so_strides _ _ Ht)]. cbn [bind].
  unfold buf_get. rewrite (cell_ok _ _ _ Hl). cbn [bind].
  pose proof (so_pos _ _ Ht i Hi) as Hp. pose proof (so_end _ _ Ht).
  rewrite (pyget_ok l _ VNone); [reflexivity|]. unfold spos in Hp. lia.
Qed.

(** * Orders *)
Lemma row_major_lt_length a b : row_major_lt a b -> length a = length b.
Proof. intros H. induction H; cbn; lia. Qed.

Lemma row_major_lt_trans a b c : row_major_lt a b -> row_major_lt b c -> row_major_lt a c.
Proof.
  intros H. revert c. induction H as [x y a b Hxy Hl|x a b H IH]; intros c Hc;
    inversion Hc as [x' y' a' b' Hxy' Hl'|x' a' b' Ht]; subst.
  - constructor; lia.
  - constructor; [lia|]. apply row_major_lt_length in Ht. lia.
  - constructor; [lia|]. apply row_major_lt_length in H. lia.
  - apply rml_tail. now apply IH.
Qed.

Lemma row_major_lt_irrefl a : ~ row_major_lt a a.
Proof. induction a as [|x a IH]; intros H; inversion H; subst; [lia|auto]. Qed.

Lemma row_major_total a b : length a = length b -> row_major_lt a b \/ a = b \/ row_major_lt b a.
Proof.
  revert b. induction a as [|x a IH]; intros [|y b] H; cbn in H; try lia; [now right; left|].
  destruct (Z.lt_trichotomy x y) as [Hl|[->|Hl]].
  - left. constructor; [assumption|lia].
  - destruct (IH b ltac:(lia)) as [H1|[->|H1]].
    + left. now constructor.
    + now right; left.
    + right; right. now constructor.
  - right; right. constructor; [assumption|lia].
Qed.

Lemma row_major_position a b sh : in_box a sh -> in_box b sh -> row_major_lt a b ->
  zdot a (make_strides sh) < zdot b (make_strides sh).
Proof.
  intros Ha Hb H. revert sh Ha Hb. induction H as [x y a b Hxy Hl|x a b H IH];
    intros sh Ha Hb; inversion Ha as [|? n ? sh' Hx Ha']; subst; inversion Hb as [|? ? ? ? Hy Hb']; subst;
    cbn [make_strides zdot].
  - pose proof (ravel_range a sh' Ha'). pose proof (ravel_range b sh' Hb').
    assert ((x + 1) * product sh' <= y * product sh') by (apply Z.mul_le_mono_nonneg_r; lia). lia.
  - specialize (IH sh' Ha' Hb'). lia.
Qed.

Lemma row_major_position_iff a b sh : in_box a sh -> in_box b sh ->
  (row_major_lt a b <-> zdot a (make_strides sh) < zdot b (make_strides sh)).
Proof.
  intros Ha Hb. split; [now apply row_major_position|]. intros Hlt.
  destruct (row_major_total a b) as [H|[->|H]]; [|assumption|lia|].
  - now rewrite (in_box_len _ _ Ha), (in_box_len _ _ Hb).
  - pose proof (row_major_position b a sh Hb Ha H). lia.
Qed.

Lemma ravel_inj a b sh : in_box a sh -> in_box b sh ->
  zdot a (make_strides sh) = zdot b (make_strides sh) -> a = b.
Proof.
  intros Ha Hb E. rewrite <- (unravel_ravel0 a sh Ha), <- (unravel_ravel0 b sh Hb). now rewrite E.
Qed.

Lemma StronglySorted_nth {A} (R : A -> A -> Prop) l d : StronglySorted R l ->
  forall p q, (p < q)%nat -> (q < length l)%nat -> R (nth p l d) (nth q l d).
Proof.
  intros H. induction H as [|x l H IH Hf]; intros p q Hpq Hq; [cbn in Hq; lia|].
  destruct q as [|q]; [lia|]. destruct p as [|p]; cbn [nth].
  - rewrite Forall_forall in Hf. apply Hf. apply nth_In. cbn in Hq; lia.
  - apply IH; [lia|cbn in Hq; lia].
Qed.

Lemma lex_eqb_eq a b : lex_eqb a b = true <-> a = b.
Proof.
  revert b. induction a as [|x a IH]; intros [|y b]; cbn [lex_eqb]; try (split; discriminate).
  - now split.
  - rewrite andb_true_iff, Z.eqb_eq, IH. split; [intros [-> ->]|intros [= -> ->]]; auto.
Qed.

(** * Lookups in the entries *)

(** the position of an index among the entries *)
Fixpoint epos (E : list (list Z * pyval)) (i : list Z) : option nat :=
  match E with
  | [] => None
  | e :: r => if lex_eqb (fst e) i then Some 0%nat
              else match epos r i with Some k => Some (S k) | None => None end
  end.

Lemma epos_some E i k : epos E i = Some k -> (k < length E)%nat /\ fst (nth k E ([], VNone)) = i.
Proof.
  revert k. induction E as [|e E IH]; intros k H; cbn [epos] in H; [discriminate|].
  destruct (lex_eqb (fst e) i) eqn:El.
  - injection H as <-. split; [cbn; lia|]. now apply lex_eqb_eq.
  - destruct (epos E i) as [m|]; [|discriminate]. injection H as <-.
    destruct (IH m eq_refl). split; [cbn; lia|assumption].
Qed.

Lemma epos_none E i : epos E i = None -> ~ In i (map fst E).
Proof.
  induction E as [|e E IH]; intros H; cbn [epos map In] in *; [tauto|].
  destruct (lex_eqb (fst e) i) eqn:El; [discriminate|].
  destruct (epos E i); [discriminate|]. intros [He|He]; [|now apply IH].
  subst i. assert (lex_eqb (fst e) (fst e) = true) by now apply lex_eqb_eq. congruence.
Qed.

Lemma lookup_epos E u i : lookup E u i =
  match epos E i with Some k => snd (nth k E ([], VNone)) | None => u end.
Proof.
  unfold lookup. induction E as [|e E IH]; cbn [find epos]; [reflexivity|].
  destruct (lex_eqb (fst e) i); [reflexivity|]. rewrite IH. now destruct (epos E i).
Qed.

Lemma ordered_nth sh E p q : ordered sh E -> (p < q)%nat -> (q < length E)%nat ->
  row_major_lt (fst (nth p E ([], VNone))) (fst (nth q E ([], VNone))).
Proof.
  intros [_ Hs] Hpq Hq.
  pose proof (StronglySorted_nth _ _ (fst ([] : list Z, VNone)) Hs p q Hpq) as H.
  rewrite map_length, !map_nth in H. auto.
Qed.

Lemma ordered_in_box sh E k : ordered sh E -> (k < length E)%nat ->
  in_box (fst (nth k E ([], VNone))) sh.
Proof. intros [Hf _] Hk. rewrite Forall_forall in Hf. apply Hf. now apply nth_In. Qed.

Lemma ordered_unique sh E p q : ordered sh E -> (p < length E)%nat -> (q < length E)%nat ->
  fst (nth p E ([], VNone)) = fst (nth q E ([], VNone)) -> p = q.
Proof.
  intros Ho Hp Hq He. destruct (Nat.lt_trichotomy p q) as [H|[H|H]]; [|assumption|].
  - pose proof (ordered_nth sh E p q Ho H Hq) as R. rewrite He in R. now apply row_major_lt_irrefl in R.
  - pose proof (ordered_nth sh E q p Ho H Hp) as R. rewrite He in R. now apply row_major_lt_irrefl in R.
Qed.

(** The position found by a search whose comparison orders entries as row-major
    order does. *)
Definition zpos (o : option nat) : option Z := option_map Z.of_nat o.

Lemma bsearch_entries sh E i d (f : Z -> Z) left right :
  ordered sh E -> in_box i sh -> 0 <= left -> right < zlen E ->
  (forall p, left <= p <= right -> d p = Ok (f p)) ->
  (forall p, left <= p <= right ->
     let x := fst (nth (Z.to_nat p) E ([], VNone)) in
     (f p < 0 <-> row_major_lt x i) /\ (f p = 0 <-> x = i)) ->
  (forall k, epos E i = Some k -> left <= Z.of_nat k <= right) ->
  bsearch (search_fuel left right) left right d = Ok (zpos (epos E i)).
Proof.
  intros Ho Hi H0 Hr Hd Hf Hk.
  destruct (bsearch_spec d f (search_fuel left right) left right) as (r & E1 & Hr1).
  - exact Hd.
  - intros p q Hp Hpq Hq Hle.
    destruct (Hf p ltac:(lia)) as [Hp1 _]. destruct (Hf q ltac:(lia)) as [Hq1 Hq2].
    apply Hp1. pose proof (ordered_nth sh E (Z.to_nat p) (Z.to_nat q) Ho ltac:(lia)) as R.
    specialize (R ltac:(unfold zlen in Hr; lia)).
    assert (f q < 0 \/ f q = 0) as [H|H] by lia.
    + eapply row_major_lt_trans; [exact R|]. now apply Hq1.
    + apply Hq2 in H. now rewrite H in R.
  - intros p q Hp Hpq Hq Hle.
    destruct (Hf p ltac:(lia)) as [Hp1 Hp2]. destruct (Hf q ltac:(lia)) as [Hq1 Hq2].
    destruct (Z.lt_trichotomy (f q) 0) as [H|[H|H]]; [| |lia]; exfalso.
    + apply Hq1 in H. pose proof (ordered_nth sh E (Z.to_nat p) (Z.to_nat q) Ho ltac:(lia)) as R.
      specialize (R ltac:(unfold zlen in Hr; lia)).
      pose proof (row_major_lt_trans _ _ _ R H) as R2. apply Hp1 in R2. lia.
    + apply Hq2 in H. pose proof (ordered_nth sh E (Z.to_nat p) (Z.to_nat q) Ho ltac:(lia)) as R.
      specialize (R ltac:(unfold zlen in Hr; lia)). rewrite H in R. apply Hp1 in R. lia.
  - apply search_fuel_ok.
  - rewrite E1. f_equal. destruct (epos E i) as [k|] eqn:Ek; cbn [zpos option_map].
    + apply Hr1. destruct (epos_some E i k Ek) as [Hlt He]. specialize (Hk k eq_refl).
      split; [assumption|]. apply Hf; [assumption|]. now rewrite Nat2Z.id.
    + destruct r as [p|]; [|reflexivity]. exfalso.
      destruct (proj1 (Hr1 p) eq_refl) as [Hp Hp0]. apply Hf in Hp0; [|assumption].
      apply (epos_none E i Ek). rewrite <- Hp0. apply in_map. apply nth_In.
      unfold zlen in Hr. lia.
Qed.

(** COO *)
Fixpoint lexdiff (a b : list Z) : Z :=
  match a, b with
  | x :: a', y :: b' => if x - y =? 0 then lexdiff a' b' else x - y
  | _, _ => 0
  end.

Lemma lexdiff_spec a b : length a = length b ->
  (lexdiff a b < 0 <-> row_major_lt a b) /\ (lexdiff a b = 0 <-> a = b).
Proof.
  revert b. induction a as [|x a IH]; intros [|y b] H; cbn in H; try lia; cbn [lexdiff].
  - split; split; intros H'; try lia; auto. inversion H'.
  - destruct (IH b ltac:(lia)) as [I1 I2]. destruct (Z.eqb_spec (x - y) 0) as [E|E].
    + assert (x = y) by lia. subst y. rewrite I1, I2. split; split; intros H'.
      * now constructor.
      * inversion H'; subst; [lia|assumption].
      * now subst.
      * now injection H'.
    + split; split; intros H'; try lia.
      * constructor; lia.
      * inversion H'; subst; lia.
      * injection H' as -> _. lia.
Qed.

Lemma lexdiff_app c a b : lexdiff (c ++ a) (c ++ b) = lexdiff a b.
Proof. induction c as [|x c IH]; cbn [app lexdiff]; [reflexivity|]. now rewrite Z.sub_diag. Qed.

Lemma nth_concat_columns (E : list (list Z * pyval)) r j p :
  (j < r)%nat -> (p < length E)%nat ->
  nth (j * length E + p) (concat (map (fun k => column k E) (seq 0 r))) 0
  = nth j (fst (nth p E ([], VNone))) 0.
Proof.
  intros Hj Hp. revert j Hj. 
  assert (G : forall n s j, (j < n)%nat ->
    nth (j * length E + p) (concat (map (fun k => column k E) (seq s n))) 0
    = nth (s + j) (fst (nth p E ([], VNone))) 0).
  { induction n as [|n IH]; intros s j Hj; [lia|]. cbn [seq map concat].
    assert (Hl : length (column s E) = length E) by apply map_length.
    destruct j as [|j].
    - rewrite app_nth1 by (rewrite Hl; lia). cbn [Nat.mul Nat.add]. rewrite Nat.add_0_r.
      unfold column. rewrite nth_indep with (d' := nth s (fst (([] : list Z), VNone)) 0)
        by (rewrite map_length; lia).
      now rewrite (map_nth (fun e => nth s (fst e) 0)).
    - rewrite app_nth2 by (rewrite Hl; cbn; lia). rewrite Hl.
      replace (S j * length E + p - length E)%nat with (j * length E + p)%nat by (cbn; lia).
      rewrite IH by lia. f_equal. lia. }
  intros j Hj. rewrite (G r 0%nat j Hj). reflexivity.
Qed.

Lemma length_concat_columns (E : list (list Z * pyval)) s r :
  length (concat (map (fun k => column k E) (seq s r))) = (r * length E)%nat.
Proof.
  revert s. induction r as [|r IH]; intros s; [reflexivity|]. cbn [seq map concat].
  rewrite app_length, IH. unfold column. rewrite map_length. lia.
Qed.

(** the integer stored in an index array *)
Lemma coo_index_int h ind r (E : list (list Z * pyval)) j p :
  sshape ind = [r; zlen E] -> sstrides ind = [zlen E; 1] ->
  holds h (sdata ind) (map VInt (concat (map (fun k => column k E) (seq 0 (Z.to_nat r))))) ->
  0 <= j < r -> 0 <= p < zlen E ->
  strided_int h ind (int_tuple [j; p]) = Ok (nth (Z.to_nat j) (fst (nth (Z.to_nat p) E ([], VNone))) 0).
Proof.
  intros Hsh Hst Hh Hj Hp. unfold strided_int, strided_getitem.
  assert (Hb : in_box [j; p] (sshape ind)) by (rewrite Hsh; repeat constructor; lia).
  rewrite normalize_ints by assumption. cbn [bind].
  rewrite is_element_ints by now apply in_box_len. rewrite int_items_ints.
  rewrite get_position_ok; [|now apply in_box_len|now rewrite Hsh, Hst]. cbn [bind].
  rewrite Hst. cbn [zdot].
  set (zs := concat _) in Hh.
  assert (Hlz : zlen zs = r * zlen E).
  { unfold zlen, zs. rewrite length_concat_columns. lia. }
  assert (Hpos : 0 <= j * zlen E + (p * 1 + 0) < zlen zs).
  { rewrite Hlz. assert ((j + 1) * zlen E <= r * zlen E) by (apply Z.mul_le_mono_nonneg_r; lia).
    assert (0 <= j * zlen E) by (apply Z.mul_nonneg_nonneg; lia). lia. }
  rewrite (buf_get_ok _ _ _ _ Hh) by now rewrite zlen_map. cbn [bind item_val].
  rewrite nth_indep with (d' := VInt 0) by (rewrite map_length; unfold zlen in *; lia).
  rewrite map_nth. cbn [as_int]. f_equal.
  replace (Z.to_nat (j * zlen E + (p * 1 + 0))) with (Z.to_nat j * length E + Z.to_nat p)%nat.
  - unfold zs. apply nth_concat_columns; unfold zlen in *; lia.
  - unfold zlen in *. clear - Hj Hp. nia.
Qed.

Lemma skipn_nth_cons (l : list Z) s : (s < length l)%nat -> skipn s l = nth s l 0 :: skipn (S s) l.
Proof.
  revert s. induction l as [|x l IH]; intros [|s] H; cbn [length] in H; try lia; [reflexivity|].
  apply IH. lia.
Qed.

Lemma coo_diff_ok h ind sh E index p :
  sshape ind = [zlen sh; zlen E] -> sstrides ind = [zlen E; 1] ->
  holds h (sdata ind) (map VInt (concat (map (fun k => column k E) (seq 0 (length sh))))) ->
  ordered sh E -> length index = length sh -> 0 <= p < zlen E ->
  coo_diff h ind p (zseq (zlen sh)) index = Ok (lexdiff (fst (nth (Z.to_nat p) E ([], VNone))) index).
Proof.
  intros Hsh Hst Hh Ho Hlen Hp.
  set (x := fst (nth (Z.to_nat p) E ([], VNone))).
  assert (Hx : length x = length sh).
  { apply in_box_len. apply ordered_in_box; [assumption|]. unfold zlen in Hp. lia. }
  unfold zseq, zlen. rewrite Nat2Z.id.
  assert (G : forall n s, (s + n = length sh)%nat ->
    coo_diff h ind p (map Z.of_nat (seq s n)) index = Ok (lexdiff (skipn s x) (skipn s index))).
  { induction n as [|n IH]; intros s Hsn; cbn [seq map coo_diff].
    - rewrite !skipn_all2 by lia. reflexivity.
    - rewrite (coo_index_int h ind (zlen sh) E (Z.of_nat s) p); auto;
        [|unfold zlen; rewrite Nat2Z.id; exact Hh|unfold zlen; lia].
      cbn [bind]. rewrite Nat2Z.id. fold x.
      rewrite (pyget_ok index (Z.of_nat s) 0) by (unfold zlen; lia). cbn [bind]. rewrite Nat2Z.id.
      assert (Ex : skipn s x = nth s x 0 :: skipn (S s) x) by (apply skipn_nth_cons; lia).
      assert (Ei : skipn s index = nth s index 0 :: skipn (S s) index) by (apply skipn_nth_cons; lia).
      rewrite Ex, Ei. cbn [lexdiff].
      destruct (nth s x 0 - nth s index 0 =? 0); [|reflexivity]. apply IH. lia. }
  exact (G (length sh) 0%nat eq_refl).
Qed.

Lemma get_coo_position_ok h sh ind d E i : entries h (SCOO sh ind d) E -> in_box i sh ->
  get_coo_position h i sh ind = Ok (zpos (epos E i)).
Proof.
  intros (Hn & Hne & Ho & Hd & Hsh & Hst & Hh & _) Hi. unfold get_coo_position.
  rewrite Hsh. change (pyget [zlen sh; zlen E] 1) with (@Ok Z (zlen E)). cbn [bind].
  apply (bsearch_entries sh E i _ (fun p => lexdiff (fst (nth (Z.to_nat p) E ([], VNone))) i)); auto; try lia.
  - intros p Hp. apply coo_diff_ok; auto; [now apply in_box_len|lia].
  - intros p Hp. apply lexdiff_spec.
    rewrite (in_box_len _ _ Hi). apply in_box_len. apply ordered_in_box; [assumption|].
    unfold zlen in Hp. lia.
  - intros k Hk. apply epos_some in Hk. unfold zlen. lia.
Qed.

(** FlatCOO *)
Lemma flatcoo_int h f sh (E : list (list Z * pyval)) p :
  holds h f (map (fun e => VInt (zdot (fst e) (c_strides sh))) E) -> 0 <= p < zlen E ->
  buf_int h f p = Ok (zdot (fst (nth (Z.to_nat p) E ([], VNone))) (make_strides sh)).
Proof.
  intros Hh Hp. rewrite <- c_strides_make.
  rewrite <- (map_map (fun e => zdot (fst e) (c_strides sh)) VInt) in Hh.
  rewrite (buf_int_ok _ _ _ _ Hh) by now rewrite zlen_map. f_equal. unfold znth.
  rewrite nth_indep with (d' := zdot (fst (([] : list Z), VNone)) (c_strides sh))
    by (rewrite map_length; unfold zlen in Hp; lia).
  now rewrite (map_nth (fun e => zdot (fst e) (c_strides sh))).
Qed.

Lemma get_flatcoo_position_ok h sh f d E i : entries h (SFlatCOO sh f d) E -> in_box i sh ->
  get_flatcoo_position h (zdot i (make_strides sh)) f = Ok (zpos (epos E i)).
Proof.
  intros (Hn & Hne & Ho & Hd & Hf & _) Hi. unfold get_flatcoo_position.
  assert (Hb : bsize f = zlen E) by (destruct Hf as (l & _ & _ & Hs & _); now rewrite zlen_map in Hs).
  rewrite Hb.
  apply (bsearch_entries sh E i _
    (fun p => zdot (fst (nth (Z.to_nat p) E ([], VNone))) (make_strides sh) - zdot i (make_strides sh)));
    auto; try lia.
  - intros p Hp. rewrite (flatcoo_int h f sh E p Hf) by lia. reflexivity.
  - intros p Hp. cbv zeta.
    assert (Hx : in_box (fst (nth (Z.to_nat p) E ([], VNone))) sh).
    { apply ordered_in_box; [assumption|]. unfold zlen in Hp; lia. }
    rewrite (row_major_position_iff _ i sh Hx Hi). split; [lia|]. split.
    + intros H. apply (ravel_inj _ i sh Hx Hi). lia.
    + intros ->. lia.
  - intros k Hk. apply epos_some in Hk. unfold zlen. lia.
Qed.

(** CSR *)
Lemma filter_lt_sorted (rows : list Z) r : StronglySorted Z.le rows -> forall k, (k < length rows)%nat ->
  (Z.of_nat k < zlen (filter (fun x => x <? r) rows) <-> nth k rows 0 < r).
Proof.
  intros H. induction H as [|x rows H IH Hf]; intros k Hk; [cbn in Hk; lia|]. cbn [filter].
  destruct (Z.ltb_spec x r) as [Hx|Hx].
  - rewrite zlen_cons. destruct k as [|k]; cbn [nth].
    + pose proof (zlen_nonneg (filter (fun x => x <? r) rows)). lia.
    + rewrite <- IH by (cbn in Hk; lia). lia.
  - assert (E : filter (fun x => x <? r) rows = []).
    { clear - Hf Hx. induction Hf as [|y l Hy Hf IH]; [reflexivity|]. cbn [filter].
      replace (y <? r) with false by lia. apply IH. }
    rewrite E. unfold zlen. cbn [length]. split; [lia|]. intros Hn. exfalso.
    destruct k as [|k]; cbn [nth] in Hn; [lia|]. rewrite Forall_forall in Hf.
    specialize (Hf (nth k rows 0)). assert (In (nth k rows 0) rows) by (apply nth_In; cbn in Hk; lia).
    specialize (Hf H0). lia.
Qed.

Lemma in_box_2 i n m : in_box i [n; m] -> exists r c, i = [r; c] /\ 0 <= r < n /\ 0 <= c < m.
Proof.
  intros H. inversion H as [|r ? i1 ? Hr H1]; subst. inversion H1 as [|c ? i2 ? Hc H2]; subst.
  inversion H2; subst. eauto 6.
Qed.

Lemma column_nth k (E : list (list Z * pyval)) p : (p < length E)%nat ->
  nth p (column k E) 0 = nth k (fst (nth p E ([], VNone))) 0.
Proof.
  intros Hp. unfold column.
  rewrite nth_indep with (d' := nth k (fst (([] : list Z), VNone)) 0) by (rewrite map_length; lia).
  now rewrite (map_nth (fun e => nth k (fst e) 0)).
Qed.

Lemma column0_sorted n m E : ordered [n; m] E -> StronglySorted Z.le (column 0 E).
Proof.
  intros [_ Hs]. unfold column. rewrite <- (map_map fst (fun i => nth 0 i 0)).
  induction Hs as [|x l Hs IH Hf]; cbn [map]; constructor; auto.
  clear - Hf. induction Hf as [|y l Hy Hf IH]; cbn [map]; constructor; auto.
  inversion Hy; subst; cbn; lia.
Qed.

Lemma get_csr_position_ok h sh crow col d E i : entries h (SCSR sh crow col d) E -> in_box i sh ->
  get_csr_position h i crow col = Ok (zpos (epos E i)).
Proof.
  intros (Hn & Hl & Ho & Hd & Hr & Hc & _) Hi.
  destruct sh as [|n [|m [|? ?]]]; cbn in Hl; try lia.
  destruct (in_box_2 i n m Hi) as (r & c & -> & Hrn & Hcm). unfold get_csr_position.
  set (cnt := fun r => zlen (filter (fun x => x <? r) (column 0 E))) in *.
  cbn [nth] in Hr. rewrite <- (map_map cnt VInt) in Hr.
  assert (Hcnt : forall q, 0 <= q <= n -> buf_int h crow q = Ok (cnt q)).
  { intros q Hq. rewrite (buf_int_ok _ _ _ _ Hr).
    - f_equal. unfold znth. rewrite nth_zseq_map by lia. now rewrite Z2Nat.id by lia.
    - rewrite zlen_map, zseq_length. lia. }
  rewrite !Hcnt by lia. cbn [bind].
  assert (Hle : cnt (r + 1) <= zlen E).
  { unfold cnt. transitivity (zlen (column 0 E)).
    - unfold zlen. clear. induction (column 0 E) as [|x l IH]; cbn [filter length]; [lia|].
      destruct (x <? r + 1); cbn [length]; lia.
    - unfold column. rewrite zlen_map. lia. }
  pose proof (column0_sorted n m E Ho) as Hs0.
  assert (Hrow : forall k, (k < length E)%nat ->
    (cnt r <= Z.of_nat k <= cnt (r + 1) - 1 <-> nth 0 (fst (nth k E ([], VNone))) 0 = r)).
  { intros k Hk. rewrite <- column_nth by assumption.
    pose proof (filter_lt_sorted (column 0 E) r Hs0 k) as F1.
    pose proof (filter_lt_sorted (column 0 E) (r + 1) Hs0 k) as F2.
    unfold column at 1 in F1. unfold column at 1 in F2. rewrite map_length in F1, F2.
    specialize (F1 Hk). specialize (F2 Hk). fold (cnt r) in F1. fold (cnt (r + 1)) in F2. lia. }
  apply (bsearch_entries [n; m] E [r; c] _
    (fun p => nth 1 (fst (nth (Z.to_nat p) E ([], VNone))) 0 - c)); auto.
  - unfold cnt, zlen. lia.
  - lia.
  - intros p Hp. rewrite (buf_int_ok _ _ _ _ Hc).
    + cbn [bind]. unfold znth. rewrite column_nth; [reflexivity|].
      pose proof (zlen_nonneg (filter (fun x => x <? r) (column 0 E))). fold (cnt r) in H. unfold zlen in *. lia.
    + unfold column. rewrite zlen_map. pose proof (zlen_nonneg (filter (fun x => x <? r) (column 0 E))).
      fold (cnt r) in H. lia.
  - intros p Hp. cbv zeta.
    pose proof (zlen_nonneg (filter (fun x => x <? r) (column 0 E))) as H0. fold (cnt r) in H0.
    assert (Hk : (Z.to_nat p < length E)%nat) by (unfold zlen in *; lia).
    pose proof (proj1 (Hrow (Z.to_nat p) Hk) ltac:(lia)) as Er.
    pose proof (ordered_in_box _ _ _ Ho Hk) as Hx.
    destruct (in_box_2 _ _ _ Hx) as (r' & c' & Ex & _ & _). rewrite Ex in *. cbn [nth] in *. subst r'.
    split; split; intros H.
    + apply rml_tail. apply rml_head; [lia|reflexivity].
    + inversion H; subst; [lia|]. inversion H2; subst; [lia|]. inversion H3.
    + f_equal. f_equal. lia.
    + injection H as ->. lia.
  - intros k Hk. destruct (epos_some _ _ _ Hk) as [Hlt He]. apply Hrow; [assumption|].
    now rewrite He.
Qed.

(** * Sparse elements *)
Definition is_sparse (s : storage) : Prop :=
  match s with SCOO _ _ _ | SFlatCOO _ _ _ | SCSR _ _ _ _ => True | _ => False end.

Lemma entries_sparse h s E : entries h s E -> is_sparse s.
Proof. destruct s; cbn; tauto. Qed.

Lemma entries_ordered h s E : entries h s E -> ordered (shape_of s) E.
Proof. destruct s; cbn; tauto. Qed.

Lemma entries_nonneg h s E : entries h s E -> nonneg (shape_of s).
Proof. destruct s; cbn; tauto. Qed.

Lemma entries_rank h s E : entries h s E -> shape_of s <> [].
Proof. destruct s; cbn; try tauto. intros (_ & H & _). now destruct shape. Qed.

Lemma entries_data h s E : entries h s E ->
  exists d, data_buffer s = Ok d /\ holds h d (map snd E) /\ bunspec d = unspecified_of s
    /\ baddr d = data_addr s.
Proof. destruct s; cbn; try tauto; intros H; eexists; repeat split; tauto. Qed.

Lemma flat_data_position_ok h s E i : entries h s E -> in_box i (shape_of s) ->
  flat_data_position h s i = Ok (zpos (epos E i)).
Proof.
  intros HE Hi. destruct s; try (cbn in HE; tauto); cbn [flat_data_position shape_of] in *.
  - now apply (get_coo_position_ok h shape indices data).
  - rewrite get_position_ok; [|now apply in_box_len|apply make_strides_length]. cbn [bind].
    now apply (get_flatcoo_position_ok h shape findices data).
  - now apply (get_csr_position_ok h shape crow col data).
Qed.

Lemma nth_map_snd (E : list (list Z * pyval)) k :
  nth k (map snd E) VNone = snd (nth k E ([], VNone)).
Proof. change VNone with (snd (([] : list Z), VNone)) at 1. apply map_nth. Qed.

Lemma flat_get_elem_ok h s E i : entries h s E -> in_box i (shape_of s) ->
  flat_get_elem h s i = Ok (lookup E (unspecified_of s) i).
Proof.
  intros HE Hi. unfold flat_get_elem. rewrite (flat_data_position_ok h s E i HE Hi). cbn [bind].
  rewrite lookup_epos. destruct (epos E i) as [k|] eqn:Ek; cbn [zpos option_map]; [|reflexivity].
  destruct (entries_data h s E HE) as (d & Ed & Hd & _). rewrite Ed. cbn [bind].
  rewrite (buf_get_ok _ _ _ _ Hd).
  - now rewrite Nat2Z.id, nth_map_snd.
  - rewrite zlen_map. apply epos_some in Ek. unfold zlen. lia.
Qed.

Lemma flat_read_ok h s E i : entries h s E -> in_box i (shape_of s) ->
  flat_read h s i = Ok (lookup E (unspecified_of s) i).
Proof.
  intros HE Hi. unfold flat_read. rewrite normalize_ints by assumption. cbn [bind].
  rewrite is_element_ints by now apply in_box_len. rewrite int_items_ints.
  now apply flat_get_elem_ok.
Qed.

(** * All classes *)
Lemma reduce_index_dm shape rdims rstrides i : forall roffset,
  Forall2 (fun g st => length g = length st) rdims rstrides ->
  axes_in (zlen i) (concat rdims) -> length roffset = length rdims ->
  reduce_index (map (gather shape) rdims) rdims rstrides roffset i
  = Ok (dm_index rdims rstrides roffset i).
Proof.
  intros roffset H. revert roffset. induction H as [|g st rdims rstrides Hl H IH];
    intros roffset Ha Hlo; cbn [map reduce_index dm_index].
  - reflexivity.
  - destruct roffset as [|o os]; [cbn in Hlo; lia|].
    cbn [concat] in Ha. apply Forall_app in Ha. destruct Ha as [H1 H2].
    rewrite get_rposition_ok; [|assumption|apply gather_length|now symmetry].
    cbn [bind]. rewrite IH by (auto; cbn in Hlo; lia). reflexivity.
Qed.

Lemma repr_getitem h s f i : repr h s f -> in_box i (shape_of s) ->
  getitem h s (int_tuple i) = Ok (IVal (f i), h).
Proof.
  revert f i. induction s as [b|t|sh ind d|sh fi d|sh cr co d|sh ch a b c d|sh rd rsh rs ro d IH];
    intros f i Hr Hi; cbn [repr shape_of] in Hr, Hi.
  - destruct Hr as (vs & Hh & Hf).
    assert (Hs : bsize b = zlen vs) by (destruct Hh as (l & _ & _ & Hs & _); exact Hs).
    inversion Hi as [|x ? i' ? Hx Hi']; subst. inversion Hi'; subst.
    cbn [getitem]. unfold buffer_getitem, int_tuple. cbn [map buf_complete_index bind].
    rewrite (buf_get_ok _ _ _ _ Hh) by lia. cbn [bind]. rewrite <- Hf by lia. reflexivity.
  - destruct Hr as (l & Hl & Ht & Hf). cbn [getitem].
    rewrite (strided_elem h t l i Hl Ht Hi). cbn [bind]. now rewrite <- Hf.
  - destruct Hr as (E & HE & Hf). cbn [getitem]. cbn [shape_of].
    rewrite normalize_ints by assumption. cbn [bind].
    rewrite is_element_ints by now apply in_box_len. rewrite int_items_ints.
    rewrite (flat_get_elem_ok h _ E i HE Hi). cbn [bind]. now rewrite <- Hf.
  - destruct Hr as (E & HE & Hf). cbn [getitem]. cbn [shape_of].
    rewrite normalize_ints by assumption. cbn [bind].
    rewrite is_element_ints by now apply in_box_len. rewrite int_items_ints.
    rewrite (flat_get_elem_ok h _ E i HE Hi). cbn [bind]. now rewrite <- Hf.
  - destruct Hr as (E & HE & Hf). cbn [getitem]. cbn [shape_of].
    rewrite normalize_ints by assumption. cbn [bind].
    rewrite is_element_ints by now apply in_box_len. rewrite int_items_ints.
    rewrite (flat_get_elem_ok h _ E i HE Hi). cbn [bind]. now rewrite <- Hf.
  - destruct Hr as (E & HE & Hf). contradiction.
  - destruct Hr as (g & Hg & Hd & Hf). cbn [getitem].
    rewrite normalize_ints by assumption. cbn [bind].
    rewrite is_element_ints by now apply in_box_len. rewrite int_items_ints.
    rewrite (dm_rshapes _ _ _ _ _ _ Hd).
    rewrite reduce_index_dm; [|apply (dm_rstrides _ _ _ _ _ _ Hd)| |apply (dm_roffset _ _ _ _ _ _ Hd)].
    2:{ rewrite (in_box_zlen _ _ Hi). apply perm_axes. apply (dm_perm _ _ _ _ _ _ Hd). }
    cbn [bind]. rewrite (IH g).
    + now rewrite <- Hf.
    + exact Hg.
    + now apply (dm_box _ _ _ _ _ _ Hd).
Qed.

Lemma repr_get h s f i : repr h s f -> in_box i (shape_of s) -> get_elem h s i = Ok (f i).
Proof. intros H Hi. unfold get_elem. now rewrite (repr_getitem h s f i H Hi). Qed.

Lemma repr_ext h s f g : (forall i, in_box i (shape_of s) -> f i = g i) -> repr h s f -> repr h s g.
Proof.
  intros Hfg. destruct s; cbn [repr shape_of] in *.
  - intros (vs & Hh & Hf). exists vs. split; [exact Hh|]. intros x Hx. rewrite <- Hf by exact Hx.
    symmetry. apply Hfg. destruct Hh as (l & _ & _ & Hs & _). repeat constructor; lia.
  - intros (l & Hl & Ht & Hf). exists l. split; [exact Hl|]. split; [exact Ht|].
    intros i Hi. now rewrite <- Hfg, <- Hf.
  - intros (E & HE & Hf). exists E. split; [exact HE|]. intros i Hi. now rewrite <- Hfg, <- Hf.
  - intros (E & HE & Hf). exists E. split; [exact HE|]. intros i Hi. now rewrite <- Hfg, <- Hf.
  - intros (E & HE & Hf). exists E. split; [exact HE|]. intros i Hi. now rewrite <- Hfg, <- Hf.
  - intros (E & HE & Hf). contradiction.
  - intros (k & Hk & Hd & Hf). exists k. split; [exact Hk|]. split; [exact Hd|].
    intros i Hi. now rewrite <- Hfg, <- Hf.
Qed.

(** Two representations of one storage agree. *)
Lemma repr_agree h s f g i : repr h s f -> repr h s g -> in_box i (shape_of s) -> f i = g i.
Proof.
  intros Hf Hg Hi. pose proof (repr_get h s f i Hf Hi) as E1.
  pose proof (repr_get h s g i Hg Hi) as E2. congruence.
Qed.

(** Frames *)
Lemma entries_frame h h' s E : (forall a, In a (addrs s) -> nth_error h' a = nth_error h a) ->
  entries h s E -> entries h' s E.
Proof.
  intros Hc. destruct s; cbn [entries]; try tauto;
    unfold addrs in Hc; cbn [data_addr index_addrs] in Hc.
  - intros (H1 & H2 & H3 & H4 & H5 & H6 & H7 & H8). repeat split; auto; try tauto; try apply H3.
    + eapply holds_frame; [|exact H4]. apply Hc. now left.
    + eapply holds_frame; [|exact H7]. apply Hc. right. now left.
  - intros (H1 & H2 & H3 & H4 & H5 & H6). repeat split; auto; try tauto; try apply H3.
    + eapply holds_frame; [|exact H4]. apply Hc. now left.
    + eapply holds_frame; [|exact H5]. apply Hc. right. now left.
  - intros (H1 & H2 & H3 & H4 & H5 & H6 & H7 & H8). repeat split; auto; try tauto; try apply H3.
    + eapply holds_frame; [|exact H4]. apply Hc. now left.
    + eapply holds_frame; [|exact H5]. apply Hc. right. now left.
    + eapply holds_frame; [|exact H6]. apply Hc. right. right. now left.
Qed.

Lemma repr_frame h h' s f : (forall a, In a (addrs s) -> nth_error h' a = nth_error h a) ->
  repr h s f -> repr h' s f.
Proof.
  revert f. induction s as [b|t|sh ind d|sh fi d|sh cr co d|sh ch a b c d|sh rd rsh rs ro d IH];
    intros f Hc Hr; cbn [repr] in *.
  - destruct Hr as (vs & Hh & Hf). exists vs. split; [|exact Hf].
    eapply holds_frame; [|exact Hh]. apply Hc. now left.
  - destruct Hr as (l & Hl & Ht & Hf). exists l. split; [|now split].
    rewrite Hc; [exact Hl|]. now left.
  - destruct Hr as (E & HE & Hf). exists E. split; [|exact Hf]. now apply (entries_frame h).
  - destruct Hr as (E & HE & Hf). exists E. split; [|exact Hf]. now apply (entries_frame h).
  - destruct Hr as (E & HE & Hf). exists E. split; [|exact Hf]. now apply (entries_frame h).
  - destruct Hr as (E & HE & Hf). contradiction.
  - destruct Hr as (g & Hg & Hd & Hf). exists g. split; [|now split]. apply IH; auto.
Qed.

(** The cells of a well-formed storage are allocated. *)
Lemma holds_lt h b vs : holds h b vs -> (baddr b < length h)%nat.
Proof. intros (l & Hl & _). apply nth_error_Some. congruence. Qed.

Lemma repr_addrs h s f a : repr h s f -> In a (addrs s) -> (a < length h)%nat.
Proof.
  revert f. induction s as [b|t|sh ind d|sh fi d|sh cr co d|sh ch a' b c d|sh rd rsh rs ro d IH];
    intros f Hr Ha; cbn [repr] in *; unfold addrs in Ha; cbn [data_addr index_addrs] in Ha.
  - destruct Hr as (vs & Hh & Hf). destruct Ha as [<-|[]]. now apply holds_lt in Hh.
  - destruct Hr as (l & Hl & _). destruct Ha as [<-|[]]. apply nth_error_Some. congruence.
  - destruct Hr as (E & HE & _). destruct HE as (_ & _ & _ & H4 & _ & _ & H7 & _).
    apply holds_lt in H4. apply holds_lt in H7. destruct Ha as [<-|[<-|[]]]; assumption.
  - destruct Hr as (E & HE & _). destruct HE as (_ & _ & _ & H4 & H5 & _).
    apply holds_lt in H4. apply holds_lt in H5. destruct Ha as [<-|[<-|[]]]; assumption.
  - destruct Hr as (E & HE & _). destruct HE as (_ & _ & _ & H4 & H5 & H6 & _).
    apply holds_lt in H4. apply holds_lt in H5. apply holds_lt in H6.
    destruct Ha as [<-|[<-|[<-|[]]]]; assumption.
  - destruct Hr as (E & HE & _). contradiction.
  - destruct Hr as (g & Hg & _). eapply IH; eassumption.
Qed.

Lemma repr_extends h h' s f : extends h h' -> repr h s f -> repr h' s f.
Proof.
  intros He Hr. eapply repr_frame; [|exact Hr]. intros a Ha.
  pose proof (repr_addrs h s f a Hr Ha) as Hlt. destruct He as [t ->].
  now apply nth_error_app1.
Qed.

Lemma repr_nonneg h s f : repr h s f -> nonneg (shape_of s).
Proof.
  destruct s; cbn [repr shape_of].
  - intros (vs & (l & _ & _ & Hs & _) & _). rewrite Hs. repeat constructor. apply zlen_nonneg.
  - intros (l & _ & Ht & _). apply (so_shape _ _ Ht).
  - intros (E & HE & _). exact (entries_nonneg _ _ _ HE).
  - intros (E & HE & _). exact (entries_nonneg _ _ _ HE).
  - intros (E & HE & _). exact (entries_nonneg _ _ _ HE).
  - intros (E & HE & _). contradiction.
  - intros (g & _ & Hd & _). apply (dm_shape _ _ _ _ _ _ Hd).
Qed.

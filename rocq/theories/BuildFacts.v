(** Building storages from values in row-major order. *)
From Coq Require Import Sorting.Sorted Permutation ZifyBool.
From Verif Require Import Py SliceTools Basics Storage Spec SliceFacts IndexFacts
  CompressFacts ReduceFacts SolverFacts SolveFacts Repr ReprFacts.

(** * The row-major enumeration *)
Lemma cart_sorted sh : StronglySorted row_major_lt (cart sh).
Proof.
  induction sh as [|n sh IH]; cbn [cart]; [repeat constructor|].
  assert (G : forall l, StronglySorted Z.lt l ->
            StronglySorted row_major_lt (flat_map (fun i => map (cons i) (cart sh)) l)).
  { intros l Hl. induction Hl as [|x l Hl IHl Hf]; cbn [flat_map]; [constructor|].
    assert (Hm : StronglySorted row_major_lt (map (cons x) (cart sh))).
    { clear - IH. induction IH as [|y m H IH Hf]; cbn [map]; constructor; auto.
      apply Forall_forall. intros z Hz. apply in_map_iff in Hz. destruct Hz as (w & <- & Hw).
      apply rml_tail. rewrite Forall_forall in Hf. auto. }
    assert (Hx : forall a b, In a (map (cons x) (cart sh)) ->
              In b (flat_map (fun i => map (cons i) (cart sh)) l) -> row_major_lt a b).
    { intros a b Ha Hb. apply in_map_iff in Ha. destruct Ha as (a' & <- & Ha').
      apply in_flat_map in Hb. destruct Hb as (y & Hy & Hb). apply in_map_iff in Hb.
      destruct Hb as (b' & <- & Hb'). apply rml_head.
      - rewrite Forall_forall in Hf. auto.
      - apply In_cart in Ha', Hb'. now rewrite (in_box_len _ _ Ha'), (in_box_len _ _ Hb'). }
    clear - Hm Hx IHl. induction Hm as [|y m H IH Hf]; cbn [app]; [exact IHl|].
    constructor.
    - apply IH. intros a b Ha Hb. apply Hx; [now right|assumption].
    - apply Forall_app. split; [exact Hf|]. apply Forall_forall. intros b Hb. apply Hx; [now left|assumption]. }
  apply G. clear. unfold zseq. generalize 0%nat as s. induction (Z.to_nat n) as [|k IH]; intros s; cbn [seq map];
    constructor; auto.
  apply Forall_forall. intros y Hy. apply in_map_iff in Hy. destruct Hy as (z & <- & Hz).
  apply in_seq in Hz. lia.
Qed.

Lemma flat_map_length_const {A B} (f : A -> list B) l k :
  (forall x, In x l -> length (f x) = k) -> length (flat_map f l) = (length l * k)%nat.
Proof.
  intros H. induction l as [|x l IH]; [reflexivity|]. cbn [flat_map length].
  rewrite app_length, H by now left. rewrite IH; [lia|]. intros y Hy. apply H. now right.
Qed.

Lemma cart_length sh : nonneg sh -> Z.of_nat (length (cart sh)) = product sh.
Proof.
  intros H. induction H as [|n sh Hn H IH]; [reflexivity|]. cbn [cart product].
  rewrite (flat_map_length_const _ _ (length (cart sh))).
  - rewrite zseq_length_nat. lia.
  - intros x _. apply map_length.
Qed.

Lemma nth_flat_map_const {A B} (f : A -> list B) l k p q d da :
  (forall x, In x l -> length (f x) = k) -> (p < length l)%nat -> (q < k)%nat ->
  nth (p * k + q) (flat_map f l) d = nth q (f (nth p l da)) d.
Proof.
  revert p. induction l as [|x l IH]; intros p H Hp Hq; [cbn in Hp; lia|]. cbn [flat_map].
  destruct p as [|p].
  - rewrite app_nth1; [reflexivity|]. rewrite H by now left. lia.
  - rewrite app_nth2 by (rewrite H by (now left); cbn; lia). rewrite H by now left.
    replace (S p * k + q - k)%nat with (p * k + q)%nat by (cbn; lia).
    cbn [nth]. apply IH; auto. + intros y Hy. apply H. now right. + cbn in Hp. lia.
Qed.

(** index [i] comes at position [zdot i strides] *)
Lemma cart_nth sh i : in_box i sh ->
  nth (Z.to_nat (zdot i (make_strides sh))) (cart sh) [] = i.
Proof.
  intros H. induction H as [|x n i sh Hx H IH]; [reflexivity|].
  cbn [make_strides zdot cart]. pose proof (ravel_range i sh H) as Hr.
  assert (Hnn : nonneg sh).
  { clear - H. induction H; constructor; auto. lia. }
  pose proof (cart_length sh Hnn) as Hl.
  replace (Z.to_nat (x * product sh + zdot i (make_strides sh)))
    with (Z.to_nat x * length (cart sh) + Z.to_nat (zdot i (make_strides sh)))%nat by nia.
  rewrite nth_flat_map_const with (k := length (cart sh)) (da := 0).
  - rewrite nth_zseq by lia. 
    rewrite nth_indep with (d' := x :: []) by (rewrite map_length; lia).
    rewrite map_nth. now rewrite IH.
  - intros y _. apply map_length.
  - rewrite zseq_length_nat. lia.
  - lia.
Qed.

(** * collect *)
Lemma collect_ok get g su u idxs : (forall i, In i idxs -> get i = Ok (g i)) ->
  collect get su u idxs = Ok (map (fun i => (i, conv_value su u (g i))) idxs).
Proof.
  induction idxs as [|i idxs IH]; intros H; cbn [collect map]; [reflexivity|].
  rewrite H by now left. cbn [bind]. rewrite IH; [reflexivity|]. intros j Hj. apply H. now right.
Qed.

Lemma mapM_ok {A B} (f : A -> res B) g l : (forall x, In x l -> f x = Ok (g x)) ->
  mapM f l = Ok (map g l).
Proof.
  induction l as [|x l IH]; intros H; cbn [mapM map]; [reflexivity|].
  rewrite H by now left. cbn [bind]. rewrite IH; [reflexivity|]. intros y Hy. apply H. now right.
Qed.

(** * Buffer and Strided *)
Lemma buffer_build_ok get g sh su u h : (forall i, in_box i sh -> get i = Ok (g i)) ->
  let vs := map (fun i => conv_value su u (g i)) (cart sh) in
  buffer_build get sh su u h = Ok (Buf (zlen vs) 0 (length h) u, h ++ [vs]).
Proof.
  intros H vs. unfold buffer_build. rewrite (collect_ok get g).
  - cbn [bind]. rewrite map_map. cbn [snd]. apply new_buffer_ok.
  - intros i Hi. apply H. now apply In_cart.
Qed.

Lemma strided_build_ok get g sh su u h : nonneg sh -> (forall i, in_box i sh -> get i = Ok (g i)) ->
  let vs := map (fun i => conv_value su u (g i)) (cart sh) in
  let t := Str sh (make_strides sh) (Buf (zlen vs) 0 (length h) u) in
  strided_build get sh su u h = Ok (t, h ++ [vs])
  /\ strided_ok t vs
  /\ forall i, in_box i sh -> nth (Z.to_nat (spos t i)) vs VNone = conv_value su u (g i).
Proof.
  intros Hn H vs t. split.
  - unfold strided_build. rewrite (buffer_build_ok get g) by assumption. cbn [bind].
    unfold mk_strided, assert_. replace (zlen sh =? zlen (make_strides sh)) with true.
    + reflexivity.
    + unfold zlen. rewrite make_strides_length. lia.
  - assert (Hz : zlen vs = product sh).
    { unfold vs. rewrite zlen_map. unfold zlen. now apply cart_length. }
    split.
    + constructor; unfold t; cbn [sshape sstrides sdata boff bsize]; auto; try lia.
      * apply make_strides_length.
      * apply zlen_nonneg.
      * intros i Hi. unfold spos. cbn [sdata boff sstrides]. pose proof (ravel_range i sh Hi). lia.
      * intros i j Hi Hj. unfold spos. cbn [sdata boff sstrides]. intros E.
        apply (ravel_inj i j sh); auto.
    + intros i Hi. unfold spos, t. cbn [sdata boff sstrides]. rewrite Z.add_0_l.
      pose proof (ravel_range i sh Hi). unfold vs.
      rewrite nth_indep with (d' := conv_value su u (g []))
        by (fold vs; unfold zlen in Hz; lia).
      rewrite (map_nth (fun i => conv_value su u (g i))). now rewrite cart_nth.
Qed.

Lemma repr_strided_build get g sh su u h : nonneg sh -> (forall i, in_box i sh -> get i = Ok (g i)) ->
  exists t h', strided_build get sh su u h = Ok (t, h')
    /\ sshape t = sh /\ bunspec (sdata t) = u /\ baddr (sdata t) = length h
    /\ h' = h ++ [map (fun i => conv_value su u (g i)) (cart sh)]
    /\ repr h' (SStrided t) (fun i => conv_value su u (g i)).
Proof.
  intros Hn H. destruct (strided_build_ok get g sh su u h Hn H) as (E & Ht & Hv).
  eexists _, _. split; [exact E|]. cbn [sshape sdata bunspec baddr]. repeat split.
  cbn [repr sdata baddr]. eexists. split; [apply nth_error_new|]. split; [exact Ht|].
  intros i Hi. now rewrite Hv.
Qed.

(** * Integer lists as sequences *)
Lemma pyget_In {A} (l : list A) i d : 0 <= i < zlen l -> pyget l i = Ok (nth (Z.to_nat i) l d).
Proof. apply pyget_ok. Qed.

Lemma cart_1 n : cart [n] = map (fun x => [x]) (zseq n).
Proof.
  cbn [cart]. induction (zseq n) as [|x l IH]; cbn [flat_map map]; [reflexivity|].
  cbn [app]. now f_equal.
Qed.

Lemma map_nth_zseq {A} (l : list A) d : map (fun x => nth (Z.to_nat x) l d) (zseq (zlen l)) = l.
Proof.
  unfold zseq. rewrite map_map. unfold zlen. rewrite Nat2Z.id.
  apply nth_ext with (d := d) (d' := d).
  - now rewrite map_length, seq_length.
  - intros n Hn. rewrite map_length, seq_length in Hn.
    rewrite nth_indep with (d' := nth (Z.to_nat (Z.of_nat 0)) l d) by (rewrite map_length, seq_length; lia).
    rewrite (map_nth (fun k => nth (Z.to_nat (Z.of_nat k)) l d)).
    rewrite seq_nth by lia. now rewrite Nat2Z.id.
Qed.

Lemma seq_shape_ints zs : seq_shape (ints zs) = [zlen zs].
Proof. destruct zs as [|z zs]; [reflexivity|]. cbn. unfold zlen. cbn [length]. rewrite map_length. reflexivity. Qed.

Lemma buffer_of_ints zs h :
  buffer_of_seq (ints zs) h = Ok (Buf (zlen zs) 0 (length h) VNone, h ++ [map VInt zs]).
Proof.
  unfold buffer_of_seq. rewrite seq_shape_ints.
  rewrite (buffer_build_ok _ (fun i => match i with [x] => nth (Z.to_nat x) (map VInt zs) VNone | _ => VNone end)).
  - rewrite cart_1, map_map.
    replace (map (fun x => conv_value VNone VNone (nth (Z.to_nat x) (map VInt zs) VNone)) (zseq (zlen zs)))
      with (map VInt zs).
    + now rewrite zlen_map.
    + rewrite <- (map_nth_zseq (map VInt zs) VNone) at 1. rewrite zlen_map.
      apply map_ext_in. intros x Hx. unfold conv_value.
      destruct (veqb (nth (Z.to_nat x) (map VInt zs) VNone) VNone) eqn:E; [|reflexivity].
      destruct (nth (Z.to_nat x) (map VInt zs) VNone); cbn in E; congruence.
  - intros i Hi. inversion Hi as [|x ? i' ? Hx Hi']; subst. inversion Hi'; subst.
    cbn [seq_value ints seq_get]. rewrite (pyget_ok _ x VNone) by now rewrite zlen_map. reflexivity.
Qed.

Lemma seq_shape_rows r zs (rows : list (list Z)) : zlen zs = r ->
  seq_shape (int_rows (zs :: rows)) = [1 + zlen rows; r].
Proof.
  intros H. cbn [int_rows map seq_shape]. fold (ints zs).
  change (seq_shape (ints zs)) with (seq_shape (ints zs)). rewrite seq_shape_ints, H.
  unfold zlen. cbn [length]. rewrite map_length. f_equal. lia.
Qed.

Lemma cart_2_values (rows : list (list Z)) c :
  Forall (fun r => zlen r = c) rows ->
  map (fun i => match i with
                | [x; y] => VInt (nth (Z.to_nat y) (nth (Z.to_nat x) rows []) 0)
                | _ => VNone end) (cart [zlen rows; c])
  = map VInt (concat rows).
Proof.
  intros H. cbn [cart].
  rewrite flat_map_concat_map, concat_map, map_map, concat_map. f_equal.
  transitivity (map (fun x => map VInt (nth (Z.to_nat x) rows [])) (zseq (zlen rows))).
  - apply map_ext_in. intros x Hx. rewrite map_map.
    assert (E : flat_map (fun i => [[i]]) (zseq c) = map (fun y => [y]) (zseq c)).
    { induction (zseq c) as [|y l IH]; cbn; [reflexivity|]. now rewrite IH. }
    cbn [map]. rewrite E, map_map.
    assert (Hc : zlen (nth (Z.to_nat x) rows []) = c).
    { rewrite Forall_forall in H. apply H. apply nth_In. apply In_zseq in Hx. unfold zlen in Hx. lia. }
    rewrite <- Hc. rewrite <- (map_nth_zseq (nth (Z.to_nat x) rows []) 0) at 2. now rewrite map_map.
  - rewrite <- (map_map (fun x => nth (Z.to_nat x) rows []) (map VInt)). now rewrite map_nth_zseq.
Qed.

Lemma strided_of_rows (rows : list (list Z)) c h : rows <> [] -> Forall (fun r => zlen r = c) rows ->
  exists t, strided_of_seq (int_rows rows) h = Ok (t, h ++ [map VInt (concat rows)])
    /\ sshape t = [zlen rows; c] /\ sstrides t = [c; 1] /\ baddr (sdata t) = length h
    /\ bunspec (sdata t) = VNone
    /\ holds (h ++ [map VInt (concat rows)]) (sdata t) (map VInt (concat rows)).
Proof.
  intros Hne Hc. destruct rows as [|z rows]; [congruence|].
  unfold strided_of_seq. rewrite (seq_shape_rows c) by now inversion Hc.
  assert (Hc0 : 0 <= c) by (inversion Hc; subst; apply zlen_nonneg).
  set (g := fun i => match i with
                | [x; y] => VInt (nth (Z.to_nat y) (nth (Z.to_nat x) (z :: rows) []) 0)
                | _ => VNone end).
  assert (Eg : map (fun i => conv_value VNone VNone (g i)) (cart [1 + zlen rows; c])
               = map VInt (concat (z :: rows))).
  { rewrite <- (cart_2_values (z :: rows) c Hc). rewrite zlen_cons. apply map_ext. intros i.
    fold (g i). unfold conv_value. destruct (veqb (g i) VNone) eqn:E; [|reflexivity].
    destruct (g i); cbn in E; congruence. }
  destruct (strided_build_ok (seq_value (int_rows (z :: rows))) g [1 + zlen rows; c] VNone VNone h)
    as (E & Ht & Hv).
  - repeat constructor; [pose proof (zlen_nonneg rows); lia|assumption].
  - intros i Hi. apply in_box_2 in Hi. destruct Hi as (x & y & -> & Hx & Hy). unfold int_rows. cbn [seq_value seq_get].
    rewrite (pyget_ok _ x VNone) by (rewrite zlen_map, zlen_cons; lia). cbn [bind].
    rewrite nth_indep with (d' := ints []) by (rewrite map_length; unfold zlen in *; cbn [length]; lia).
    rewrite map_nth. unfold ints at 1.
    assert (Hzc : zlen (nth (Z.to_nat x) (z :: rows) []) = c).
    { rewrite Forall_forall in Hc. apply Hc. apply nth_In. unfold zlen in *. cbn [length]. lia. }
    rewrite (pyget_ok _ y (VInt 0)) by (rewrite zlen_map; lia). cbn [bind].
    rewrite map_nth. reflexivity.
  - rewrite Eg in E. eexists. split; [exact E|]. cbn [sshape sstrides sdata baddr].
    rewrite zlen_cons. split; [reflexivity|]. split.
    { cbn [make_strides product]. f_equal. lia. }
    split; [reflexivity|]. split; [reflexivity|]. apply holds_new.
Qed.

(** * Sparse builds *)
Lemma lex_eqb_refl a : lex_eqb a a = true.
Proof. now apply lex_eqb_eq. Qed.

Lemma In_lookup E u i v : NoDup (map fst E) -> In (i, v) E -> lookup E u i = v.
Proof.
  intros Hnd Hin. unfold lookup. induction E as [|e E IH]; [contradiction|]. cbn [find].
  inversion Hnd as [|? ? Hni Hnd']; subst. destruct Hin as [->|Hin].
  - cbn [fst]. now rewrite lex_eqb_refl.
  - destruct (lex_eqb (fst e) i) eqn:El.
    + apply lex_eqb_eq in El. exfalso. apply Hni. rewrite El. now apply (in_map fst) in Hin.
    + now apply IH.
Qed.

Lemma lookup_absent E u i : ~ In i (map fst E) -> lookup E u i = u.
Proof.
  intros H. unfold lookup. induction E as [|e E IH]; [reflexivity|]. cbn [find].
  destruct (lex_eqb (fst e) i) eqn:El.
  - apply lex_eqb_eq in El. exfalso. apply H. left. exact El.
  - apply IH. intros Hin. apply H. now right.
Qed.

Lemma sorted_NoDup l : StronglySorted row_major_lt l -> NoDup l.
Proof.
  intros H. induction H as [|x l H IH Hf]; constructor; auto. intros Hin.
  rewrite Forall_forall in Hf. now apply (row_major_lt_irrefl x), Hf.
Qed.

Lemma ordered_NoDup sh E : ordered sh E -> NoDup (map fst E).
Proof. intros [_ H]. now apply sorted_NoDup. Qed.

Definition entries_of (sh : list Z) (u : pyval) (f : list Z -> pyval) : list (list Z * pyval) :=
  specified u (map (fun i => (i, f i)) (cart sh)).

Lemma filter_sorted {A} (R : A -> A -> Prop) p l : StronglySorted R l -> StronglySorted R (filter p l).
Proof.
  intros H. induction H as [|x l H IH Hf]; cbn [filter]; [constructor|].
  destruct (p x); [|exact IH]. constructor; [exact IH|].
  apply Forall_forall. intros y Hy. apply filter_In in Hy. rewrite Forall_forall in Hf. now apply Hf.
Qed.

Lemma sorted_map_fst {A B} (R : A -> A -> Prop) (l : list (A * B)) :
  StronglySorted (fun x y => R (fst x) (fst y)) l <-> StronglySorted R (map fst l).
Proof.
  split; intros H.
  - induction H as [|x l H IH Hf]; cbn [map]; constructor; auto.
    clear - Hf. induction Hf; cbn [map]; constructor; auto.
  - induction l as [|x l IH]; [constructor|]. cbn [map] in H. inversion H as [|? ? H1 H2]; subst.
    constructor; auto. clear - H2. induction l as [|y l IH]; constructor; inversion H2; auto.
Qed.

Lemma entries_of_ordered sh u f : ordered sh (entries_of sh u f).
Proof.
  split.
  - apply Forall_forall. intros e He. unfold entries_of, specified in He. apply filter_In in He.
    destruct He as [He _]. apply in_map_iff in He. destruct He as (i & <- & Hi). now apply In_cart.
  - apply sorted_map_fst. apply filter_sorted. apply sorted_map_fst. rewrite map_map. cbn [fst].
    rewrite map_id. apply cart_sorted.
Qed.

Fixpoint veqb_eq (x y : pyval) {struct x} : veqb x y = true -> x = y.
Proof.
  destruct x as [|z|n|l], y as [|z'|n'|m]; cbn [veqb]; try discriminate; intros H.
  - reflexivity.
  - f_equal. lia.
  - f_equal. now apply N.eqb_eq.
  - f_equal. revert m H. induction l as [|a l IH]; intros [|b m] H; try discriminate; [reflexivity|].
    apply andb_true_iff in H. destruct H as [H1 H2]. f_equal; [now apply veqb_eq|now apply IH].
Qed.

Fixpoint veqb_refl (x : pyval) {struct x} : veqb x x = true.
Proof.
  destruct x as [|z|n|l]; cbn [veqb].
  - reflexivity.
  - apply Z.eqb_refl.
  - apply N.eqb_refl.
  - induction l as [|a l IH]; [reflexivity|]. now rewrite veqb_refl, IH.
Qed.

Lemma veqb_iff x y : veqb x y = true <-> x = y.
Proof. split; [apply veqb_eq|intros ->; apply veqb_refl]. Qed.

Lemma entries_of_lookup sh u f i : in_box i sh -> lookup (entries_of sh u f) u i = f i.
Proof.
  intros Hi. destruct (veqb (f i) u) eqn:E.
  - apply veqb_eq in E. rewrite lookup_absent; [now symmetry|]. intros Hin.
    apply in_map_iff in Hin. destruct Hin as ([j v] & Hj & Hin). cbn [fst] in Hj. subst j.
    unfold entries_of, specified in Hin. apply filter_In in Hin. destruct Hin as [Hin Hs].
    apply in_map_iff in Hin. destruct Hin as (k & Hk & _). injection Hk as -> <-. cbn [snd] in Hs.
    rewrite E, veqb_refl in Hs. discriminate.
  - apply In_lookup.
    + eapply ordered_NoDup. apply entries_of_ordered.
    + unfold entries_of, specified. apply filter_In. split; [|cbn [snd]; now rewrite E].
      apply in_map_iff. exists i. split; [reflexivity|]. now apply In_cart.
Qed.

Lemma columns_column n (E : list (list Z * pyval)) :
  columns n (map fst E) = map (fun k => column k E) (seq 0 n).
Proof.
  unfold columns, column. apply map_ext. intros k. now rewrite map_map.
Qed.

Lemma columns_const n (E : list (list Z * pyval)) :
  Forall (fun r => zlen r = zlen E) (map (fun k => column k E) (seq 0 n)).
Proof.
  apply Forall_forall. intros r Hr. apply in_map_iff in Hr. destruct Hr as (k & <- & _).
  unfold column. apply zlen_map.
Qed.

(** The two allocations of a COO. *)
Lemma coo_alloc sh E u h : nonneg sh -> sh <> [] -> ordered sh E ->
  let d := Buf (zlen E) 0 (length h) u in
  let h1 := h ++ [map snd E] in
  exists ind h2, strided_of_seq (int_rows (columns (length sh) (map fst E))) h1 = Ok (ind, h2)
    /\ extends h1 h2
    /\ mk_coo sh ind d = Ok (SCOO sh ind d)
    /\ baddr (sdata ind) = S (length h)
    /\ entries h2 (SCOO sh ind d) E.
Proof.
  intros Hn Hne Ho d h1. rewrite columns_column.
  destruct (strided_of_rows (map (fun k => column k E) (seq 0 (length sh))) (zlen E) h1)
    as (t & Et & Hsh & Hst & Ha & Hu & Hh).
  - destruct sh; [congruence|]. discriminate.
  - apply columns_const.
  - exists t. eexists. split; [exact Et|]. split; [apply extends_alloc|].
    rewrite zlen_map in Hsh. assert (Hls : zlen (seq 0 (length sh)) = zlen sh) by (unfold zlen; now rewrite seq_length).
    rewrite Hls in Hsh. split; [|split].
    + unfold mk_coo. rewrite Hsh. change (pyget [zlen sh; zlen E] 1) with (@Ok Z (zlen E)). cbn [bind].
      unfold d, assert_. cbn [bsize]. now rewrite Z.eqb_refl.
    + rewrite Ha. unfold h1. rewrite app_length. cbn. lia.
    + cbn [entries]. split; [exact Hn|]. split; [exact Hne|]. split; [exact Ho|]. split.
      * eapply holds_extends; [apply extends_alloc|]. unfold d.
        rewrite <- (zlen_map snd E). apply holds_new.
      * split; [exact Hsh|]. split; [exact Hst|]. split; [exact Hh|].
        rewrite Ha. unfold d, h1. cbn [baddr]. rewrite app_length. cbn [length]. split; [lia|exact Hu].
Qed.

Lemma coo_build_ok get g sh su u h : nonneg sh -> sh <> [] ->
  (forall i, in_box i sh -> get i = Ok (g i)) ->
  let E := entries_of sh u (fun i => conv_value su u (g i)) in
  exists ind h', coo_build get sh su u h = Ok (SCOO sh ind (Buf (zlen E) 0 (length h) u), h')
    /\ extends h h'
    /\ baddr (sdata ind) = S (length h)
    /\ entries h' (SCOO sh ind (Buf (zlen E) 0 (length h) u)) E.
Proof.
  intros Hn Hne Hg E. unfold coo_build.
  rewrite (collect_ok get g) by (intros i Hi; apply Hg; now apply In_cart). cbn [bind].
  fold (entries_of sh u (fun i => conv_value su u (g i))). fold E.
  rewrite new_buffer_ok. cbn [bind]. rewrite zlen_map.
  destruct (coo_alloc sh E u h Hn Hne (entries_of_ordered _ _ _)) as (ind & h2 & E1 & E2 & E3 & Ea & E4).
  rewrite E1. cbn [bind]. rewrite E3. cbn [bind]. exists ind, h2. split; [reflexivity|].
  split; [|split; [exact Ea|exact E4]].
  eapply extends_trans; [apply extends_alloc|exact E2].
Qed.

Lemma flatcoo_alloc sh E u h : nonneg sh -> sh <> [] -> ordered sh E ->
  let d := Buf (zlen E) 0 (length h) u in
  let f := Buf (zlen E) 0 (S (length h)) VNone in
  let h2 := (h ++ [map snd E]) ++ [map VInt (map (fun e => zdot (fst e) (make_strides sh)) E)] in
  mk_flatcoo sh f d = Ok (SFlatCOO sh f d)
  /\ entries h2 (SFlatCOO sh f d) E.
Proof.
  intros Hn Hne Ho d f h2. split.
  - unfold mk_flatcoo, assert_, d, f. cbn [bsize]. now rewrite Z.eqb_refl.
  - cbn [entries]. split; [exact Hn|]. split; [exact Hne|]. split; [exact Ho|]. split; [|split].
    + eapply holds_extends; [apply extends_alloc|]. unfold d. rewrite <- (zlen_map snd E). apply holds_new.
    + rewrite c_strides_make. rewrite <- (map_map (fun e => zdot (fst e) (make_strides sh)) VInt).
      unfold f, h2. replace (S (length h)) with (length (h ++ [map snd E])) by (rewrite app_length; cbn; lia).
      rewrite <- (zlen_map (fun e => zdot (fst e) (make_strides sh)) E), <- (zlen_map VInt). apply holds_new.
    + unfold d, f. cbn [baddr bunspec]. split; [lia|reflexivity].
Qed.

Lemma mapM_positions {B} (E : list (list Z * B)) sh : Forall (fun e => in_box (fst e) sh) E ->
  mapM (fun p => get_position (fst p) sh (make_strides sh)) E
  = Ok (map (fun e => zdot (fst e) (make_strides sh)) E).
Proof.
  intros H. apply mapM_ok. intros e He. rewrite Forall_forall in H. specialize (H e He).
  apply get_position_ok; [now apply in_box_len|apply make_strides_length].
Qed.

Lemma flatcoo_build_ok get g sh su u h : nonneg sh -> sh <> [] ->
  (forall i, in_box i sh -> get i = Ok (g i)) ->
  let E := entries_of sh u (fun i => conv_value su u (g i)) in
  let s := SFlatCOO sh (Buf (zlen E) 0 (S (length h)) VNone) (Buf (zlen E) 0 (length h) u) in
  exists h', flatcoo_build get sh su u h = Ok (s, h')
    /\ extends h h' /\ entries h' s E.
Proof.
  intros Hn Hne Hg E s. unfold flatcoo_build.
  rewrite (collect_ok get g) by (intros i Hi; apply Hg; now apply In_cart). cbn [bind].
  fold (entries_of sh u (fun i => conv_value su u (g i))). fold E.
  pose proof (entries_of_ordered sh u (fun i => conv_value su u (g i))) as Ho. fold E in Ho.
  rewrite mapM_positions by apply Ho. cbn [bind].
  rewrite new_buffer_ok. cbn [bind]. rewrite new_buffer_ok. cbn [bind].
  destruct (flatcoo_alloc sh E u h Hn Hne Ho) as [E1 E2].
  rewrite !zlen_map. replace (length (h ++ [map snd E])) with (S (length h)) by (rewrite app_length; cbn; lia).
  rewrite E1. cbn [bind]. eexists. split; [reflexivity|]. split; [|exact E2].
  eapply extends_trans; apply extends_alloc.
Qed.

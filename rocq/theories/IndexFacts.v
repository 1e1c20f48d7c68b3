(** Lemmas on index normalisation and strided indexing (any rank). *)
From Verif Require Import Py SliceTools Spec SliceFacts.

(** * Normalised indices as pure functions *)
Definition normal_item (i : nind) (n : Z) : Prop :=
  match i with
  | NInt z => 0 <= z < n
  | NSl r => normal_slice r n
  | NNone => True
  end.
Definition normal_index (ix : list nind) (shape : list Z) : Prop := Forall2 normal_item ix shape.

Definition r_count (r : rsl) : Z := sp_count (r_start r) (r_stop r) (r_step r).

Fixpoint n_shape (ix : list nind) (shape : list Z) : list Z :=
  match ix, shape with
  | NInt _ :: r, _ :: sh => n_shape r sh
  | NSl s :: r, _ :: sh => r_count s :: n_shape r sh
  | NNone :: r, n :: sh => n :: n_shape r sh
  | _, _ => []
  end.

Fixpoint n_strides (ix : list nind) (strides : list Z) : list Z :=
  match ix, strides with
  | NInt _ :: r, _ :: st => n_strides r st
  | NSl s :: r, a :: st => a * r_step s :: n_strides r st
  | NNone :: r, a :: st => a :: n_strides r st
  | _, _ => []
  end.

Fixpoint n_offset (ix : list nind) (shape strides : list Z) : Z :=
  match ix, shape, strides with
  | NInt z :: r, _ :: sh, a :: st => a * z + n_offset r sh st
  | NSl s :: r, n :: sh, a :: st => a * (r_start s mod n) + n_offset r sh st
  | NNone :: r, _ :: sh, _ :: st => n_offset r sh st
  | _, _, _ => 0
  end.

Fixpoint n_source (ix : list nind) (shape j : list Z) : list Z :=
  match ix, shape with
  | NInt z :: r, _ :: sh => z :: n_source r sh j
  | NSl s :: r, n :: sh =>
      match j with
      | [] => []
      | x :: j' => r_start s mod n + x * r_step s :: n_source r sh j'
      end
  | NNone :: r, _ :: sh =>
      match j with
      | [] => []
      | x :: j' => x :: n_source r sh j'
      end
  | _, _ => []
  end.

Lemma r_count_nonneg r n : normal_slice r n -> 0 <= r_count r.
Proof. intros H. apply sp_count_nonneg. now apply normal_slice_step in H. Qed.

Lemma nitems_r_normal r n : normal_slice r n -> nitems_r r = Ok (r_count r).
Proof.
  intros H. destruct r as [a b k]. unfold r_count. cbn [r_start r_stop r_step].
  destruct H as [E|[H|H]]; cbn [r_start r_stop r_step] in *.
  - injection E as -> -> ->. reflexivity.
  - apply nitems_pos; lia.
  - apply nitems_neg; lia.
Qed.

(** The items of a normal slice, through [selected]. *)
Lemma normal_selected r n : 0 < n -> normal_slice r n ->
  selected (to_slice r) n
  = map (fun i => r_start r mod n + i * r_step r) (zseq (r_count r)).
Proof.
  intros Hn H.
  assert (Hs : sp_step (to_slice r) <> 0) by (cbn; now apply normal_slice_step in H).
  rewrite (selected_closed_form (to_slice r) n Hn Hs).
  rewrite reduced_normal_id by (assumption || lia).
  f_equal. f_equal.
  pose proof (nitems_correct (to_slice r) n ltac:(lia) Hs) as Hc.
  unfold nitems in Hc. rewrite reduced_normal_id in Hc by (assumption || lia).
  rewrite (nitems_r_normal r n H) in Hc. now injection Hc.
Qed.

Lemma normal_slice_item_range r n x : 0 < n -> normal_slice r n -> 0 <= x < r_count r ->
  0 <= r_start r mod n + x * r_step r < n.
Proof.
  intros Hn H Hx.
  assert (Hs : sp_step (to_slice r) <> 0) by (cbn; now apply normal_slice_step in H).
  apply (selected_in_range (to_slice r) n); [lia|assumption|].
  rewrite normal_selected by assumption.
  apply in_map_iff. exists x. split; [reflexivity|]. now apply In_zseq.
Qed.

Lemma reduced_count s n : 0 <= n -> sp_step s <> 0 ->
  r_count (reduced s n) = zlen (selected s n).
Proof.
  intros Hn Hk.
  pose proof (nitems_correct s n Hn Hk) as Hc. unfold nitems in Hc.
  rewrite (nitems_r_normal _ n) in Hc by now apply reduced_normal. now injection Hc.
Qed.

(** * normalize_index *)
Fixpoint norm_items (ix : list ind) (shape : list Z) : list nind :=
  match shape with
  | [] => []
  | n :: sh =>
      match ix with
      | [] => NNone :: norm_items [] sh
      | IInt z :: r => NInt (z mod n) :: norm_items r sh
      | ISlice s :: r => NSl (reduced s n) :: norm_items r sh
      | _ :: r => NNone :: norm_items r sh
      end
  end.

Lemma norm_items_nil shape : norm_items [] shape = map (fun _ => NNone) shape.
Proof. induction shape; cbn; congruence. Qed.

Lemma normalize_tuple_ok ix shape : positive shape -> Forall ok_item ix ->
  (length ix <= length shape)%nat ->
  normalize_tuple ix shape = Ok (norm_items ix shape).
Proof.
  intros Hp. revert ix. induction Hp as [|n sh Hn Hp IH]; intros ix Hok Hlen.
  - destruct ix; [reflexivity|cbn in Hlen; lia].
  - destruct ix as [|i r].
    + now rewrite norm_items_nil.
    + inversion Hok as [|? ? Hi Hr]; subst. cbn [length] in Hlen.
      cbn [normalize_tuple norm_items].
      specialize (IH r Hr ltac:(lia)).
      destruct i as [z|s| |]; cbn [ok_item] in Hi; try contradiction; rewrite ?IH; cbn [bind].
      * unfold pymod. replace (n =? 0) with false by lia. reflexivity.
      * reflexivity.
      * reflexivity.
Qed.

Lemma normalize_index_ok ix shape : positive shape -> ok_index ix shape ->
  normalize_index ix shape = Ok (norm_items (index_items ix) shape).
Proof.
  intros Hp [Hok Hlen]. destruct ix as [i|l].
  - cbn [index_items] in *. inversion Hok as [|? ? Hi _]; subst.
    destruct Hlen as [Hlen|Hlen].
    + injection Hlen as ->. cbn [normalize_index].
      destruct shape; [reflexivity|]. cbn [norm_items]. now rewrite norm_items_nil.
    + cbn [length] in Hlen. destruct shape as [|n sh]; [cbn in Hlen; lia|].
      inversion Hp; subst.
      destruct i as [z|s| |]; cbn [ok_item] in Hi; try contradiction;
        cbn [normalize_index norm_items]; rewrite norm_items_nil; try reflexivity.
      unfold pymod. replace (n =? 0) with false by lia. reflexivity.
  - destruct Hlen as [Hlen|Hlen]; [discriminate|]. cbn [normalize_index index_items] in *.
    now apply normalize_tuple_ok.
Qed.

Lemma norm_items_normal ix shape : positive shape -> normal_index (norm_items ix shape) shape.
Proof.
  intros Hp. revert ix. induction Hp as [|n sh Hn Hp IH]; intros ix; cbn [norm_items].
  - constructor.
  - destruct ix as [|[z|s| |] r]; constructor; try apply IH; cbn [normal_item]; auto.
    + apply Z.mod_pos_bound. lia.
    + apply reduced_normal. lia.
Qed.

Lemma norm_items_idem ix shape : positive shape ->
  norm_items (map nind_to_ind (norm_items ix shape)) shape = norm_items ix shape.
Proof.
  intros Hp. revert ix. induction Hp as [|n sh Hn Hp IH]; intros ix; cbn [norm_items map].
  - reflexivity.
  - destruct ix as [|[z|s| |] r]; cbn [map norm_items nind_to_ind]; rewrite IH; try reflexivity.
    + rewrite Z.mod_mod by lia. reflexivity.
    + rewrite reduced_idempotent by lia. reflexivity.
Qed.

Lemma normal_index_id nix shape : positive shape -> normal_index nix shape ->
  normalize_index (XTuple (map nind_to_ind nix)) shape = Ok nix.
Proof.
  intros Hp H. cbn [normalize_index].
  induction H as [|i n ix sh Hi H IH]; [reflexivity|].
  inversion Hp; subst.
  cbn [map normalize_tuple]. destruct i as [z|r|]; cbn [nind_to_ind normal_item] in *;
    rewrite IH by assumption; cbn [bind].
  - unfold pymod. replace (n =? 0) with false by lia. cbn [bind].
    now rewrite Z.mod_small.
  - rewrite reduced_normal_id by (assumption || lia). reflexivity.
  - reflexivity.
Qed.

(** * Relation of the pure functions with the specification *)
Lemma norm_items_shape ix shape : positive shape -> Forall ok_item ix ->
  n_shape (norm_items ix shape) shape = items_shape ix shape.
Proof.
  intros Hp. revert ix. induction Hp as [|n sh Hn Hp IH]; intros ix Hok; cbn [norm_items].
  - destruct ix as [|[]]; reflexivity.
  - destruct ix as [|i r].
    + cbn [n_shape items_shape]. f_equal. rewrite IH by constructor.
      destruct sh; reflexivity.
    + inversion Hok as [|? ? Hi Hr]; subst.
      destruct i as [z|s| |]; cbn [ok_item] in Hi; try contradiction; cbn [n_shape items_shape];
        rewrite IH by assumption; try reflexivity.
      f_equal. apply reduced_count; [lia|assumption].
Qed.

Lemma nth_map_zseq (f : Z -> Z) n x d : 0 <= x < n -> nth (Z.to_nat x) (map f (zseq n)) d = f x.
Proof.
  intros H. rewrite nth_indep with (d' := f 0).
  2:{ rewrite map_length, zseq_length_nat. lia. }
  rewrite map_nth. f_equal. now apply nth_zseq.
Qed.

Lemma norm_items_source ix shape j : positive shape -> Forall ok_item ix ->
  in_box j (items_shape ix shape) ->
  n_source (norm_items ix shape) shape j = items_source ix shape j.
Proof.
  intros Hp. revert ix j. induction Hp as [|n sh Hn Hp IH]; intros ix j Hok Hj; cbn [norm_items].
  - destruct ix as [|[]]; reflexivity.
  - destruct ix as [|i r].
    + cbn [n_source items_source items_shape] in *. inversion Hj as [|x ? j' ? Hx Hj']; subst.
      f_equal.
      rewrite IH.
      * destruct sh; cbn [items_source]; [now inversion Hj'|reflexivity].
      * constructor.
      * destruct sh; exact Hj'.
    + inversion Hok as [|? ? Hi Hr]; subst.
      destruct i as [z|s| |]; cbn [ok_item] in Hi; try contradiction;
        cbn [n_source items_source items_shape] in *.
      * now rewrite IH.
      * inversion Hj as [|x ? j' ? Hx Hj']; subst. rewrite IH by assumption. f_equal.
        rewrite (selected_closed_form s n) by (assumption || lia).
        now rewrite nth_map_zseq.
      * inversion Hj as [|x ? j' ? Hx Hj']; subst. now rewrite IH.
Qed.

(** * index_strided *)
Lemma index_strided_ok ix shape strides off :
  positive shape -> normal_index ix shape -> length strides = length shape ->
  index_strided ix shape strides off
  = Ok (n_shape ix shape, n_strides ix strides, off + n_offset ix shape strides).
Proof.
  intros Hp H. revert strides off.
  induction H as [|i n ix sh Hi H IH]; intros strides off Hl.
  - cbn. do 2 f_equal; lia.
  - inversion Hp; subst. destruct strides as [|a st]; [cbn in Hl; lia|].
    cbn [length] in Hl. cbn [index_strided n_shape n_strides n_offset].
    destruct i as [z|r|]; cbn [normal_item] in Hi.
    + rewrite IH by (assumption || lia). do 2 f_equal; lia.
    + unfold pymod. replace (n =? 0) with false by lia. cbn [bind].
      rewrite (nitems_r_normal _ _ Hi). cbn [bind].
      rewrite IH by (assumption || lia). cbn [bind]. do 2 f_equal; lia.
    + rewrite IH by (assumption || lia). cbn [bind]. reflexivity.
Qed.

Lemma shape_strided_ok ix shape : normal_index ix shape ->
  shape_strided ix shape = Ok (n_shape ix shape).
Proof.
  intros H. induction H as [|i n ix sh Hi H IH]; [reflexivity|].
  cbn [shape_strided n_shape]. destruct i as [z|r|]; cbn [normal_item] in Hi.
  - exact IH.
  - rewrite (nitems_r_normal _ _ Hi). cbn [bind]. rewrite IH. reflexivity.
  - rewrite IH. reflexivity.
Qed.

Lemma n_strides_length ix shape strides : length strides = length shape ->
  length (n_strides ix strides) = length (n_shape ix shape).
Proof.
  revert ix strides. induction shape as [|n sh IH]; intros ix strides Hl;
    destruct strides as [|a st]; cbn in Hl; try lia.
  - destruct ix as [|[]]; reflexivity.
  - destruct ix as [|[] ix]; cbn [n_strides n_shape length]; try reflexivity;
      rewrite ?(IH ix st); lia.
Qed.

Lemma n_source_in_box ix shape j : positive shape -> normal_index ix shape ->
  in_box j (n_shape ix shape) -> in_box (n_source ix shape j) shape.
Proof.
  intros Hp H. revert j. induction H as [|i n ix sh Hi H IH]; intros j Hj.
  - constructor.
  - inversion Hp; subst. destruct i as [z|r|]; cbn [normal_item n_shape n_source] in *.
    + constructor; [assumption|now apply IH].
    + inversion Hj as [|x ? j' ? Hx Hj']; subst. constructor; [|now apply IH].
      now apply normal_slice_item_range.
    + inversion Hj as [|x ? j' ? Hx Hj']; subst. constructor; [assumption|now apply IH].
Qed.

(** Position of a slice element. *)
Lemma n_offset_dot ix shape strides j :
  normal_index ix shape -> length strides = length shape ->
  in_box j (n_shape ix shape) ->
  n_offset ix shape strides + zdot j (n_strides ix strides)
  = zdot (n_source ix shape j) strides.
Proof.
  intros H. revert strides j. induction H as [|i n ix sh Hi H IH]; intros strides j Hl Hj.
  - inversion Hj; subst. reflexivity.
  - destruct strides as [|a st]; [cbn in Hl; lia|]. cbn [length] in Hl.
    destruct i as [z|r|]; cbn [n_shape n_strides n_offset n_source] in *.
    + cbn [zdot]. rewrite <- (IH st j) by (assumption || lia). lia.
    + inversion Hj as [|x ? j' ? Hx Hj']; subst. cbn [zdot].
      rewrite <- (IH st j') by (assumption || lia). lia.
    + inversion Hj as [|x ? j' ? Hx Hj']; subst. cbn [zdot].
      rewrite <- (IH st j') by (assumption || lia). lia.
Qed.

Lemma n_source_inj ix shape j j' : normal_index ix shape ->
  in_box j (n_shape ix shape) -> in_box j' (n_shape ix shape) ->
  n_source ix shape j = n_source ix shape j' -> j = j'.
Proof.
  intros H. revert j j'. induction H as [|i n ix sh Hi H IH]; intros j j' Hj Hj' E.
  - inversion Hj; inversion Hj'; reflexivity.
  - destruct i as [z|r|]; cbn [normal_item n_shape n_source] in *.
    + injection E as E. now apply IH.
    + inversion Hj as [|x ? k ? Hx Hk]; subst. inversion Hj' as [|x' ? k' ? Hx' Hk']; subst.
      injection E as E1 E2. apply normal_slice_step in Hi. f_equal; [nia|now apply IH].
    + inversion Hj as [|x ? k ? Hx Hk]; subst. inversion Hj' as [|x' ? k' ? Hx' Hk']; subst.
      injection E as -> E2. f_equal. now apply IH.
Qed.

Lemma n_shape_nonneg ix shape : positive shape -> normal_index ix shape ->
  nonneg (n_shape ix shape).
Proof.
  intros Hp H. induction H as [|i n ix sh Hi H IH]; [constructor|].
  inversion Hp; subst. specialize (IH ltac:(assumption)).
  destruct i as [z|r|]; cbn [n_shape normal_item] in *.
  - exact IH.
  - constructor; [now apply r_count_nonneg in Hi|exact IH].
  - constructor; [lia|exact IH].
Qed.

(** Element indices. *)
Lemma normalize_int_tuple i shape : in_box i shape ->
  normalize_tuple (map IInt i) shape = Ok (map NInt i).
Proof.
  intros H. induction H as [|x n i sh Hx H IH]; [reflexivity|].
  cbn [map normalize_tuple]. unfold pymod. replace (n =? 0) with false by lia. cbn [bind].
  rewrite IH. cbn [bind]. now rewrite Z.mod_small.
Qed.

(** * apply_slices *)
Lemma apply_slices_ok ix shape strides off : positive shape -> Forall ok_item ix ->
  length ix = length shape -> length strides = length shape ->
  apply_slices ix shape strides off
  = index_strided (norm_items ix shape) shape strides off.
Proof.
  intros Hp. revert ix strides off.
  induction Hp as [|n sh Hn Hp IH]; intros ix strides off Hok Hl Hs.
  - destruct ix; [|discriminate]. reflexivity.
  - destruct ix as [|i r]; [discriminate|]. destruct strides as [|a st]; [discriminate|].
    cbn [length] in *. inversion Hok as [|? ? Hi Hr]; subst.
    cbn [apply_slices norm_items].
    destruct i as [z|s| |]; cbn [ok_item] in Hi; try contradiction; cbn [index_strided].
    + unfold pymod. replace (n =? 0) with false by lia. cbn [bind]. apply IH; (assumption || lia).
    + destruct (pymod _ _); cbn [bind]; [|reflexivity].
      destruct (nitems_r _); cbn [bind]; [|reflexivity].
      rewrite IH by (assumption || lia). reflexivity.
    + rewrite IH by (assumption || lia). reflexivity.
Qed.

(** * Summaries used by the property files *)

(** What normalisation may do to one item, stated without the model's recursion. *)
Definition item_normalized (i : ind) (n : Z) (m : nind) : Prop :=
  match i, m with
  | IInt z, NInt x => 0 <= x < n /\ exists q, z = x + q * n
  | ISlice s, NSl r => r = reduced s n /\ selected (to_slice r) n = selected s n
  | INone, NNone => True
  | _, _ => False
  end.

Lemma norm_items_length ix shape : length (norm_items ix shape) = length shape.
Proof.
  revert ix. induction shape as [|n sh IH]; intros ix; [reflexivity|].
  destruct ix as [|[] r]; cbn [norm_items length]; now rewrite IH.
Qed.

Lemma norm_items_items ix shape : positive shape -> Forall ok_item ix ->
  forall k, (k < length shape)%nat ->
  item_normalized (nth k ix INone) (nth k shape 0) (nth k (norm_items ix shape) NNone).
Proof.
  intros Hp. revert ix. induction Hp as [|n sh Hn Hp IH]; intros ix Hok k Hk.
  - cbn in Hk. lia.
  - destruct ix as [|i r].
    + destruct k; cbn [nth norm_items]; [exact I|].
      specialize (IH [] Hok k ltac:(cbn in Hk; lia)). now destruct k.
    + inversion Hok as [|? ? Hi Hr]; subst.
      destruct k.
      * cbn [nth]. destruct i as [z|s| |]; cbn [ok_item] in Hi; try contradiction;
          cbn [norm_items nth item_normalized]; auto.
        -- split; [apply Z.mod_pos_bound; lia|]. exists (z / n).
           rewrite (Z.div_mod z n) at 1 by lia. lia.
        -- split; [reflexivity|]. apply reduced_selected; [lia|assumption].
      * cbn [nth]. destruct i as [z|s| |]; cbn [norm_items nth];
          apply IH; (assumption || (cbn in Hk; lia)).
Qed.

Lemma normalize_index_full ix shape : positive shape -> ok_index ix shape ->
  exists nix, normalize_index ix shape = Ok nix
    /\ length nix = length shape
    /\ (forall k, (k < length shape)%nat ->
          item_normalized (nth k (index_items ix) INone) (nth k shape 0) (nth k nix NNone))
    /\ normalize_index (XTuple (map nind_to_ind nix)) shape = Ok nix.
Proof.
  intros Hp Hok. exists (norm_items (index_items ix) shape).
  pose proof Hok as [Hit _].
  split; [now apply normalize_index_ok|]. split; [apply norm_items_length|].
  split; [now apply norm_items_items|].
  apply normal_index_id; [assumption|]. now apply norm_items_normal.
Qed.

Lemma normalize_tuple_too_long ix shape k i : positive shape ->
  (length shape <= k)%nat -> nth_error ix k = Some i ->
  match i with IInt _ => True | ISlice _ => True | _ => False end ->
  Forall (fun x => x <> IOther) ix ->
  normalize_tuple ix shape = Raise IndexError.
Proof.
  revert shape k. induction ix as [|x r IH]; intros shape k Hp Hk Hi Hit Ho.
  - destruct k; discriminate.
  - inversion Ho as [|? ? Hx Hr]; subst. cbn [normalize_tuple].
    destruct shape as [|n sh].
    + destruct x as [z|s| |]; try reflexivity; try congruence.
      destruct k; cbn [nth_error] in Hi; [injection Hi as <-; contradiction|].
      apply (IH [] k); auto. cbn; lia.
    + destruct k as [|k]; [cbn in Hk; lia|]. cbn [nth_error length] in *.
      inversion Hp; subst.
      assert (E : normalize_tuple r sh = Raise IndexError) by (apply (IH sh k); auto; lia).
      destruct x as [z|s| |]; rewrite ?E; try reflexivity; try congruence.
      unfold pymod. replace (n =? 0) with false by lia. reflexivity.
Qed.

Lemma index_strided_full ix shape strides off0 : positive shape -> ok_index ix shape ->
  length strides = length shape ->
  exists nix st off,
    normalize_index ix shape = Ok nix
    /\ index_strided nix shape strides off0 = Ok (slice_shape ix shape, st, off)
    /\ length st = length (slice_shape ix shape)
    /\ forall j, in_box j (slice_shape ix shape) ->
         in_box (source_index ix shape j) shape
         /\ off + zdot j st = off0 + zdot (source_index ix shape j) strides.
Proof.
  intros Hp Hok Hl. pose proof Hok as [Hit _].
  pose proof (norm_items_normal (index_items ix) shape Hp) as Hn.
  exists (norm_items (index_items ix) shape),
         (n_strides (norm_items (index_items ix) shape) strides),
         (off0 + n_offset (norm_items (index_items ix) shape) shape strides).
  split; [now apply normalize_index_ok|].
  assert (Hsh : n_shape (norm_items (index_items ix) shape) shape = slice_shape ix shape)
    by (now apply norm_items_shape).
  split; [rewrite index_strided_ok by assumption; now rewrite Hsh|].
  split; [rewrite <- Hsh; now apply n_strides_length|].
  intros j Hj. unfold source_index. rewrite <- norm_items_source by assumption.
  rewrite <- Hsh in Hj.
  split; [now apply n_source_in_box|].
  rewrite <- n_offset_dot by assumption. lia.
Qed.

(** C54: is_full of DM arrays. *)
From Coq Require Import Permutation ZifyBool.
From Verif Require Import Py SliceTools Basics Storage Enumerate Spec SliceFacts IndexFacts
  CompressFacts ReduceFacts SolverFacts SolveFacts Repr ReprFacts ViewFacts BuildFacts SparseFacts
  ConvFacts FromFacts DMFacts ReadFacts MapFacts ChainFacts WriteFacts EffectFacts PropRead PropWrite PropEnum.

(** The reduced array of a DM array that holds all its elements. *)
Definition dense_data (d : storage) : Prop := match d with SBuffer _ | SStrided _ => True | _ => False end.

Lemma dm_reduce h sh rd rsh rs ro d f i : repr h (SDM sh rd rsh rs ro d) f -> in_box i sh ->
  data_position h (SDM sh rd rsh rs ro d) i = Ok (Some (DTup (dm_index rd rs ro i))).
Proof.
  intros (g & Hg & Hd & _) Hi. cbn [data_position]. rewrite (dm_rshapes _ _ _ _ _ _ Hd).
  rewrite reduce_index_dm; [reflexivity|apply (dm_rstrides _ _ _ _ _ _ Hd)| |apply (dm_roffset _ _ _ _ _ _ Hd)].
  rewrite (in_box_zlen _ _ Hi). apply perm_axes, (dm_perm _ _ _ _ _ _ Hd).
Qed.

Lemma NoDup_map_inj {A B} (f : A -> B) l : (forall x y, In x l -> In y l -> f x = f y -> x = y) -> NoDup l -> NoDup (map f l).
Proof.
  intros Hf Hn. induction Hn as [|x l Hx Hn IH]; [constructor|]. cbn [map]. constructor.
  - intros Hin. apply in_map_iff in Hin. destruct Hin as (y & E & Hy). apply Hf in E; [|now right|now left]. now subst.
  - apply IH. intros a b Ha Hb. apply Hf; now right.
Qed.

(** is_full of a DM array over a dense array: whether every element of the
    reduced array is an element of the DM array, which is so for all arrays made by
    fromobject and fails for slices that leave elements out.  elements() lists
    every index in any case. *)
Theorem C54_dm_exactly_partial : forall h sh rd rsh rs ro d,
  let s := SDM sh rd rsh rs ro d in
  valid h s -> dense_data d ->
  (forall i, in_box i sh -> stored h s i)
  /\ exists b, is_full s = Ok b
     /\ (b = true <-> forall r, in_box r (shape_of d) ->
           exists i, in_box i sh /\ data_position h s i = Ok (Some (DTup r))).
Proof.
  intros h sh rd rsh rs ro d s [f Hr] Hdd. pose proof Hr as (g & Hg & Hd & Hf).
  split. { intros i Hi. now apply (stored_dense h s f i Hr I). }
  assert (Hsz : size_of s = Ok (product (shape_of d))).
  { cbn [size_of s]. destruct d; try contradiction; cbn [size_of shape_of product]; [now rewrite Z.mul_1_r|reflexivity]. }
  unfold is_full. rewrite Hsz. cbn [bind shape_of s]. eexists. split; [reflexivity|]. rewrite Z.eqb_eq.
  assert (Hnn : nonneg (shape_of d)).
  { destruct d; try contradiction.
    - destruct Hg as (vs & (l & _ & _ & Hs & _) & _). constructor; [cbn; unfold zlen in Hs; lia|constructor].
    - destruct Hg as (l & _ & K & _). exact (so_shape _ _ K). }
  pose proof (cart_length _ Hnn) as L1. pose proof (cart_length _ (dm_shape _ _ _ _ _ _ Hd)) as L2.
  set (m := map (dm_index rd rs ro) (cart sh)).
  assert (Hinc : incl m (cart (shape_of d))).
  { intros r Hin. apply in_map_iff in Hin. destruct Hin as (i & <- & Hi). apply In_cart. apply (dm_box _ _ _ _ _ _ Hd). now apply In_cart. }
  assert (Hnd : NoDup m).
  { apply NoDup_map_inj; [|apply sorted_NoDup, cart_sorted]. intros i j Hi Hj E. apply (dm_inj _ _ _ _ _ _ Hd); auto; now apply In_cart. }
  assert (Hlen : length m = length (cart sh)) by apply map_length.
  split.
  - intros E r Hi. assert (In r m).
    { apply (NoDup_length_incl (l' := cart (shape_of d)) Hnd); [lia|exact Hinc|now apply In_cart]. }
    apply in_map_iff in H. destruct H as (i & <- & Hin). apply In_cart in Hin. exists i. split; [exact Hin|].
    now apply (dm_reduce h sh rd rsh rs ro d f).
  - intros Hall. assert (incl (cart (shape_of d)) m).
    { intros r Hin. apply In_cart in Hin. destruct (Hall r Hin) as (i & Hi & E).
      unfold s in E. rewrite (dm_reduce h sh rd rsh rs ro d f i Hr Hi) in E. injection E as <-. apply in_map. now apply In_cart. }
    pose proof (NoDup_incl_length Hnd Hinc). pose proof (NoDup_incl_length (sorted_NoDup _ (cart_sorted _)) H). lia.
Qed.
Print Assumptions C54_dm_exactly_partial.

(** Over a sparse array: whether the reduced array has as many stored elements as
    the DM array has indices, wherever these are.  elements() lists every index. *)
Theorem C54_dm_sparse_partial : forall h sh rd rsh rs ro d,
  let s := SDM sh rd rsh rs ro d in
  valid h s -> is_sparse d -> positive (shape_of d) ->
  (forall i, in_box i sh -> stored h s i)
  /\ exists L, NoDup L /\ (forall r, In r L <-> stored h d r)
     /\ is_full s = Ok (zlen L =? n_elements sh).
Proof.
  intros h sh rd rsh rs ro d s [f Hr] Hs Hp. pose proof Hr as (g & Hg & Hd & Hf).
  split. { intros i Hi. now apply (stored_dense h s f i Hr I). }
  destruct (sparse_entries h d g Hg Hs) as (E & HE & _). exists (map fst E).
  split; [apply (ordered_NoDup _ _ (entries_ordered h d E HE))|].
  split; [intros r; symmetry; now apply stored_sparse|].
  unfold is_full. cbn [size_of s]. rewrite (entries_size h d E HE), zlen_map. reflexivity.
Qed.
Print Assumptions C54_dm_sparse_partial.

(** Two of the four elements of a matrix are stored; its row without a stored
    element is reported full, the whole is not. *)
Example C54_dm_sparse_case :
  ('(s, h) <- dm_fromobject [] (SrcSeq (VSeq [VSeq [VInt 1; VInt 2]; VSeq [VInt 0; VInt 0]])) (fo_unspecified (Some (VInt 0)))
                (Some [0; 1]) (Some [1]) CCOO ;;
   '(v, h1) <- getitems h s [XTuple [ISlice (Sl (Some 1) None None)]] ;;
   a <- is_full s ;; b <- is_full v ;; x <- get_elem h1 v [0; 0] ;; y <- get_elem h1 v [0; 1] ;; Ok (a, b, [x; y]))
  = Ok (false, true, [VInt 0; VInt 0]).
Proof. vm_compute. reflexivity. Qed.

Lemma built_dm_form h h' s : built_dm h h' s ->
  exists sh rd d, s = SDM sh rd (map (gather sh) rd) (group_strides sh rd) (repeat 0 (length rd)) d
    /\ shape_of d = group_shape sh rd /\ valid h' s.
Proof.
  intros [v sh u dimensions partitioning c s0 h0 Hreg Hp [Hn Hd Hpart] Hc Hsp E
         |t u dimensions partitioning c s0 h0 [f Hr] Hp [Hn Hd Hpart] Hc Hst E].
  - assert (Hsrc : source_repr h (SrcSeq v) (nested_elem v)).
    { exists sh. split; [exact Hreg|reflexivity]. }
    pose proof (source_reads h (SrcSeq v) (nested_elem v) u Hsrc) as Hreads.
    cbn [get_shape] in Hreads. rewrite (regular_shape sh v Hreg) in Hreads.
    pose proof (dm_args_strict (dm_is_buffer c) _ _ _ Hn Hd Hpart) as Ha.
    destruct (dm_fromobject_ok c h (SrcSeq v) (fo_unspecified u) dimensions partitioning sh _ Hreads Hp Ha)
      as (d & h1 & E1 & E2 & E3 & E4 & E5 & E6 & E7 & E8).
    { apply (dm_class_ok_intro c sh dimensions partitioning (chosen VNone u)
               (fo_value (SrcSeq v) (fo_unspecified u) (nested_elem v))); auto.
      intros Ec. destruct (Hsp Ec) as (i & x & Hi & Hx & N1 & N2). exists i. split; [exact Hi|].
      unfold fo_value, nested_elem. rewrite Hx. now apply conv_differs. }
    rewrite E1 in E. injection E as <- <-. eexists _, _, _. split; [reflexivity|]. split; [exact E2|]. eexists. exact E6.
  - assert (Hne : shape_of t <> []) by (intros E'; rewrite E' in Hn; discriminate).
    pose proof (dm_args_strict (dm_is_buffer c) _ _ _ Hn Hd Hpart) as Ha.
    pose proof (storage_reads h t f (Some (shape_of t)) u Hr Hne eq_refl) as Hreads.
    destruct (dm_fromobject_ok c h (SrcSto t) (FO (Some (shape_of t)) None u) dimensions partitioning _ f Hreads Hp Ha)
      as (d & h1 & E1 & E2 & E3 & E4 & E5 & E6 & E7 & E8).
    { apply (dm_class_ok_intro c (shape_of t) dimensions partitioning (chosen (unspecified_of t) u)
               (fo_value (SrcSto t) (FO (Some (shape_of t)) None u) f)); auto.
      intros Ec. exact (stays_specified h t f _ Hr (Hst Ec)). }
    unfold as_DM in E. rewrite E1 in E. injection E as <- <-.
    eexists _, _, _. split; [reflexivity|]. split; [exact E2|]. eexists. exact E6.
Qed.

Lemma product_app a b : product (a ++ b) = product a * product b.
Proof. induction a as [|x a IH]; cbn [app product]; [lia|]. rewrite IH. lia. Qed.

Lemma group_product sh rd : Permutation (concat rd) (zseq (zlen sh)) -> product (group_shape sh rd) = product sh.
Proof.
  intros Hp. transitivity (product (gather sh (concat rd))).
  - clear Hp. induction rd as [|g rd IH]; [reflexivity|]. cbn [group_shape map concat product].
    unfold gather in *. rewrite map_app, product_app. f_equal. exact IH.
  - apply product_perm. now apply gather_perm.
Qed.

(** A DM array made by fromobject or as_DM is full exactly if its reduced array
    is; so it is over Buffer and Strided. *)
Theorem C54_dm_built_partial : forall h h' s, built_dm h h' s ->
  exists sh rd rsh rs ro d, s = SDM sh rd rsh rs ro d
    /\ is_full s = is_full d /\ (dense_data d -> is_full s = Ok true).
Proof.
  intros h h' s Hb. destruct (built_dm_form h h' s Hb) as (sh & rd & d & -> & E & [f (g & Hg & Hd & _)]).
  eexists _, _, _, _, _, d. split; [reflexivity|].
  assert (P : product (shape_of d) = product sh) by (rewrite E; apply group_product, (dm_perm _ _ _ _ _ _ Hd)).
  assert (Q : is_full (SDM sh rd (map (gather sh) rd) (group_strides sh rd) (repeat 0 (length rd)) d) = is_full d)
    by (unfold is_full; cbn [size_of shape_of]; now rewrite P).
  split; [exact Q|]. intros Hdd. rewrite Q. unfold is_full.
  destruct d; try contradiction; cbn [size_of shape_of bind product]; f_equal; lia.
Qed.
Print Assumptions C54_dm_built_partial.

(** A 2 x 2 x 2 array over Strided is full, its slice [:, 1:] is not. *)
Example C54_dm_case :
  ('(s, h) <- dm_fromobject [] (SrcSeq nested_2x2x2) fo_default (Some [2; 0; 1]) (Some [2]) CStrided ;;
   '(v, h1) <- getitems h s [XTuple [INone; ISlice (Sl (Some 1) None None)]] ;;
   a <- is_full s ;; b <- is_full v ;; e <- elements h1 v ;; Ok (a, b, length e)) = Ok (true, false, 4%nat).
Proof. vm_compute. reflexivity. Qed.

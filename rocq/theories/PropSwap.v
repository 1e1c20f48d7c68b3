(** C118: programs that differ only in the classes they use. *)
From Coq Require Import Sorting.Sorted Permutation ZifyBool.
From Verif Require Import Py SliceTools Basics Storage Spec SliceFacts IndexFacts
  CompressFacts ReduceFacts SolverFacts SolveFacts Repr ReprFacts ViewFacts BuildFacts SparseFacts
  ConvFacts FromFacts DMFacts ReadFacts MapFacts ChainFacts WriteFacts EffectFacts EqFacts PureFacts AliasFacts
  PropRead PropWrite PropFail PropIndex PropReach PropMore RefineFacts PropCopy Machine PropRefine Flood PropFlood Turns PropTurns.

(** ** Specification *)

(** Classes that keep all elements in one list: Buffer and Strided.  DM arrays
    over them are treated by the operations. *)
Definition whole (c : cls) : Prop := c = CBuffer \/ c = CStrided.
(** Classes that keep the indices of the stored elements in any number of
    dimensions. *)
Definition listed (c : cls) : Prop := c = CCOO \/ c = CFlatCOO.

(** The operation [o'] is [o] with another class for the array it makes. *)
Inductive swapped : op -> op -> Prop :=
| sp_same o : swapped o o
| sp_new c c' v u : whole c /\ whole c' \/ listed c /\ listed c' -> swapped (New c v u) (New c' v u)
| sp_new_dm c v u d p c' : whole c -> whole c' -> swapped (New c v u) (NewDM v u d p c')
| sp_dm_new c v u d p c' : whole c -> whole c' -> swapped (NewDM v u d p c') (New c v u)
| sp_dm v u d p c d' p' c' : whole c -> whole c' -> swapped (NewDM v u d p c) (NewDM v u d' p' c')
| sp_as k c c' u : whole c /\ whole c' \/ listed c /\ listed c' -> swapped (As k c u) (As k c' u)
| sp_as_dm k c u d p c' : whole c -> whole c' -> swapped (As k c u) (AsDM k d p c' u)
| sp_dm_as k c u d p c' : whole c -> whole c' -> swapped (AsDM k d p c' u) (As k c u)
| sp_as_dms k u d p c d' p' c' : whole c -> whole c' -> swapped (AsDM k d p c u) (AsDM k d' p' c' u).

(** Every conversion is to a class the array does not have, or gives a new
    unspecified value: otherwise the result is the array itself. *)
Definition converting (ops : list op) : Prop :=
  forall before k c after x, ops = before ++ As k c None :: after -> nth_error (vars (run before)) k = Some x ->
    ~ is_class c (vsto x).

(** ** The machine *)

Definition alike_cls (c c' : cls) (views : bool) : Prop := c = c' \/ views = true \/ listed c /\ listed c'.
(** Arrays of the machine that differ in nothing but the class. *)
Inductive alike : arr -> arr -> Prop :=
| al c c' w sh u r f g : alike_cls c c' w -> (w = true -> view_class c = true /\ view_class c' = true) ->
    alike (Arr c w sh u r f g) (Arr c' w sh u r f g).
Inductive malike : machine -> machine -> Prop :=
| mal f l l' : Forall2 alike l l' -> malike (Machine f l) (Machine f l').

Lemma forall2_nth {A B} (P : A -> B -> Prop) : forall l l', Forall2 P l l' -> forall k,
  match nth_error l k, nth_error l' k with Some x, Some y => P x y | None, None => True | _, _ => False end.
Proof. intros l l' H. induction H as [|x y l l' Hx H IH]; intros [|k]; cbn; auto. apply IH. Qed.


Lemma malike_value m m' v j : malike m m' -> avalue m v j = avalue m' v j.
Proof.
  intros [f l l' H]. destruct v as [w|k]; [reflexivity|]. cbn [avalue arrs]. pose proof (forall2_nth _ _ _ H k) as N.
  destruct (nth_error l k), (nth_error l' k); try contradiction; [|reflexivity]. now destruct N.
Qed.
Lemma malike_put m m' a a' i w : malike m m' -> alike a a' -> malike (aput m a i w) (aput m' a' i w).
Proof. intros [f l l' H] [c c' v sh u r g g' C V]. unfold aput. cbn. now constructor. Qed.
Lemma malike_assigned m m' a a' ix v : malike m m' -> alike a a' -> malike (assigned m a ix v) (assigned m' a' ix v).
Proof.
  intros M A. unfold assigned.
  replace (a_shape a') with (a_shape a) by (destruct A; reflexivity).
  generalize (all_indices (slice_shape ix (a_shape a))) as js. intros js. revert m m' M.
  induction js as [|j js IH]; intros m m' M; cbn [fold_left]; [exact M|]. apply IH.
  rewrite (malike_value _ _ v j M). now apply malike_put.
Qed.
Lemma malike_new m m' c c' w sh u f g : malike m m' -> alike_cls c c' w -> (w = true -> view_class c = true /\ view_class c' = true) ->
  malike (anew m c w sh u f g) (anew m' c' w sh u f g).
Proof.
  intros [h l l' H] C V. unfold anew. cbn [arrs content]. replace (length l') with (length l) by (clear - H; induction H; cbn; congruence). constructor.
  apply Forall2_app; [exact H|]. constructor; [now constructor|constructor].
Qed.
Lemma malike_view m m' a a' sh s : malike m m' -> alike a a' -> malike (aview m a sh s) (aview m' a' sh s).
Proof.
  intros [h l l' H] [c c' w sh0 u r f g C V]. unfold aview. cbn. constructor.
  apply Forall2_app; [exact H|]. constructor; [now constructor|constructor].
Qed.
Lemma malike_with m m' k f f' : malike m m' -> (forall a a', alike a a' -> nth_error (arrs m) k = Some a ->
    nth_error (arrs m') k = Some a' -> malike (f a) (f' a')) ->
  malike (awith m k f) (awith m' k f').
Proof.
  intros M H. unfold awith. destruct M as [h l l' F] eqn:E. cbn [arrs] in *. pose proof (forall2_nth _ _ _ F k) as N.
  destruct (nth_error l k), (nth_error l' k); try contradiction; auto.
Qed.
Lemma alike_keeps a a' c c' u : alike a a' -> c = c' \/ whole c /\ whole c' \/ listed c /\ listed c' ->
  keeps (a_cls a) c u = keeps (a_cls a') c' u.
Proof.
  intros [d d' w sh v r f g C V] D. cbn [a_cls]. destruct u; [reflexivity|].
  destruct C as [->|[->|[C1 C2]]]; destruct D as [->|[[D1 D2]|[D1 D2]]]; unfold whole, listed in *; cbn [keeps];
    try (destruct V as [V1 V2]; [reflexivity|]);
    repeat match goal with H : _ \/ _ |- _ => destruct H as [H|H] end; subst; try reflexivity;
    repeat match goal with x : cls |- _ => destruct x end; try reflexivity; try discriminate.
Qed.

(** The conversion does not return the array itself. *)
Definition converts (m : machine) (o : op) : Prop :=
  forall k c a, o = As k c None -> nth_error (arrs m) k = Some a -> same_cls c (a_cls a) = false.

Lemma converts_step m k c u a : converts m (As k c u) -> nth_error (arrs m) k = Some a ->
  same_cls c (a_cls a) && match u with None => true | _ => false end = false.
Proof. intros H E. destruct u; [apply andb_false_r|]. now rewrite (H k c a eq_refl E). Qed.

Lemma group_view c c' : whole c /\ whole c' \/ listed c /\ listed c' ->
  view_class c = view_class c' /\ sparse_class c = sparse_class c' /\ alike_cls c c' (view_class c).
Proof.
  unfold alike_cls, whole, listed. intros [[[-> | ->] [-> | ->]]|[[-> | ->] [-> | ->]]]; cbn; auto 8.
Qed.
Lemma whole_view c : whole c -> view_class c = true /\ sparse_class c = false.
Proof. intros [-> | ->]; auto. Qed.

Lemma malike_step m m' o o' : malike m m' -> swapped o o' -> converts m o -> converts m' o' ->
  malike (astep m o) (astep m' o').
Proof.
  intros M S H H'.
  assert (Self : forall c w, alike_cls c c w) by (intros; now left).
  assert (AsCase : forall k c c' u, o = As k c u -> o' = As k c' u -> c = c' \/ whole c /\ whole c' \/ listed c /\ listed c' ->
    malike (astep m o) (astep m' o')).
  { intros k c c' u -> -> G. cbn [astep]. apply malike_with; [exact M|]. intros a a' A Ea Ea'.
    rewrite (converts_step _ _ _ _ _ H Ea), (converts_step _ _ _ _ _ H' Ea'), <- (alike_keeps a a' c c' u A G).
    assert (G' : view_class c = view_class c' /\ sparse_class c = sparse_class c' /\ alike_cls c c' (view_class c)).
    { destruct G as [->|G]; [auto|now apply group_view]. }
    destruct G' as (G1 & G2 & G3). unfold stores. rewrite <- G1, <- G2. inversion M as [h l l' F E1 E2]. subst m m'.
    destruct A as [d d' w sh v r f g C V]. cbn [a_unspec a_shape a_has aread].
    apply malike_new; [exact M|exact G3|]. intros Q. split; congruence. }
  assert (DMCase : forall k u c d p c', whole c -> whole c' ->
     (converts m (As k c u) -> malike (astep m (As k c u)) (astep m' (AsDM k d p c' u)))
     /\ (converts m' (As k c u) -> malike (astep m (AsDM k d p c' u)) (astep m' (As k c u)))).
  { intros k u c d p c' W W'. destruct (whole_view _ W) as [W1 W2], (whole_view _ W') as [W1' W2'].
    assert (K : forall a, keeps (a_cls a) c u = false).
    { intros a. destruct u; [reflexivity|]. destruct W as [-> | ->]; destruct (a_cls a); reflexivity. }
    split; intros Hc; cbn [astep]; (apply malike_with; [exact M|]); intros a a' A Ea Ea'.
    - rewrite (converts_step _ _ _ _ _ Hc Ea), K, W1, W1'. unfold stores. rewrite W2.
      inversion M as [h l l' F E1 E2]. subst m m'. destruct A as [e e' w sh v r f g C V]. cbn [a_unspec a_shape a_has aread].
      apply malike_new; [exact M|right; now left|auto].
    - rewrite (converts_step _ _ _ _ _ Hc Ea'), K, W1, W1'. unfold stores. rewrite W2.
      inversion M as [h l l' F E1 E2]. subst m m'. destruct A as [e e' w sh v r f g C V]. cbn [a_unspec a_shape a_has aread].
      apply malike_new; [exact M|right; now left|auto]. }
  destruct S as [o|c c' v u G|c v u d p c' W W'|c v u d p c' W W'|v u d p c d' p' c' W W'|k c c' u G|k c u d p c' W W'|k c u d p c' W W'|k u d p c d' p' c' W W'].
  - destruct o as [c v u|v u d p c|k c u|k d p c u|k ix|k u|k ix v].
    + cbn [astep]. apply malike_new; auto.
    + cbn [astep]. apply malike_new; auto.
    + apply (AsCase k c c u); auto.
    + cbn [astep]. apply malike_with; [exact M|]. intros a a' A _ _. inversion M as [h l l' F E1 E2]. subst m m'.
      destruct A as [e e' w sh v r f g C V]. cbn [a_unspec a_shape a_has aread]. apply malike_new; auto.
    + cbn [astep]. apply malike_with; [exact M|]. intros a a' A _ _. pose proof A as A0. inversion M as [h l l' F E1 E2]. subst m m'.
      destruct A as [e e' w sh v r f g C V]. cbn [a_unspec a_shape a_has aread a_views a_cls]. destruct w.
      { exact (malike_view _ _ _ _ _ _ M A0). }
      destruct C as [->|[C|[[-> | ->] [-> | ->]]]]; try discriminate; cbn [slice_cls forgets];
        apply malike_new; auto; try discriminate; right; right; unfold listed; auto.
    + cbn [astep]. apply malike_with; [exact M|]. intros a a' A _ _. inversion M as [h l l' F E1 E2]. subst m m'.
      destruct A as [e e' w sh v r f g C V]. cbn [a_unspec a_shape a_has aread a_views a_cls]. apply malike_new; auto.
    + cbn [astep]. apply malike_with; [exact M|]. intros a a' A _ _. now apply malike_assigned.
  - destruct (group_view _ _ G) as (G1 & G2 & G3). cbn [astep]. unfold stores. rewrite <- G1, <- G2.
    apply malike_new; auto. intros Q. split; congruence.
  - destruct (whole_view _ W) as [W1 W2], (whole_view _ W') as [W1' W2']. cbn [astep]. unfold stores. rewrite W1, W2, W1'.
    apply malike_new; auto. right. now left.
  - destruct (whole_view _ W) as [W1 W2], (whole_view _ W') as [W1' W2']. cbn [astep]. unfold stores. rewrite W1, W2, W1'.
    apply malike_new; auto. right. now left.
  - destruct (whole_view _ W) as [W1 W2], (whole_view _ W') as [W1' W2']. cbn [astep]. rewrite W1, W1'. apply malike_new; auto.
  - apply (AsCase k c c' u); auto.
  - now apply (DMCase k u c d p c' W W').
  - now apply (DMCase k u c d p c' W W').
  - destruct (whole_view _ W) as [W1 W2], (whole_view _ W') as [W1' W2']. cbn [astep]. rewrite W1, W1'.
    apply malike_with; [exact M|]. intros a a' A _ _. inversion M as [h l l' F E1 E2]. subst m m'.
    destruct A as [e e' w sh v r f g C V]. cbn [a_unspec a_shape a_has aread]. apply malike_new; auto.
Qed.

Lemma same_cls_eq c c' : same_cls c c' = true -> c = c'.
Proof. destruct c, c'; try discriminate; reflexivity. Qed.
Lemma converting_converts ops o : covered ops -> converting (ops ++ [o]) -> converts (arun ops) o.
Proof.
  intros H C k c a -> Ha. destruct (same_cls c (a_cls a)) eqn:E; [|reflexivity]. exfalso. apply same_cls_eq in E. subst c.
  pose proof (run_refines ops H) as R. destruct (nth_error (vars (run ops)) k) as [x|] eqn:Ek.
  - apply (C ops k (a_cls a) [] x eq_refl Ek). apply (sw_cls _ _ _ _ (rf_shows _ _ R k x a Ek Ha)).
  - apply nth_error_None in Ek. rewrite (rf_len _ _ R) in Ek.
    assert (k < length (arrs (arun ops)))%nat by (apply nth_error_Some; congruence). lia.
Qed.
Lemma converting_snoc ops o : converting (ops ++ [o]) -> converting ops.
Proof. intros C b k c a x E. apply (C b k c (a ++ [o]) x). rewrite E, <- app_assoc. reflexivity. Qed.

Lemma forall2_snoc {A B} (P : A -> B -> Prop) : forall l x l', Forall2 P (l ++ [x]) l' ->
  exists l0 y, l' = l0 ++ [y] /\ Forall2 P l l0 /\ P x y.
Proof.
  induction l as [|z l IH]; intros x l' H; cbn [app] in H; inversion H as [|? y ? r Hx Hr]; subst.
  - inversion Hr; subst. exists [], y. auto.
  - destruct (IH _ _ Hr) as (l0 & y' & -> & H1 & H2). exists (y :: l0), y'. split; [reflexivity|]. split; [now constructor|exact H2].
Qed.

Lemma arun_swapped : forall ops ops', covered ops -> covered ops' -> converting ops -> converting ops' ->
  Forall2 swapped ops ops' -> malike (arun ops) (arun ops').
Proof.
  induction ops as [|o ops IH] using rev_ind; intros ops' H H' C C' S.
  - inversion S. constructor. constructor.
  - destruct (forall2_snoc _ _ _ _ S) as (ops0 & o' & -> & S1 & S2).
    apply covered_snoc in H, H'. destruct H as [H Ho], H' as [H' Ho'].
    unfold arun. rewrite !fold_left_app. cbn [fold_left]. fold (arun ops) (arun ops0).
    apply malike_step; auto; try (now apply converting_converts).
    apply IH; auto; eapply converting_snoc; eassumption.
Qed.

(** ** C118 *)
Theorem C118_classes : forall ops ops', covered ops -> covered ops' -> converting ops -> converting ops' ->
  Forall2 swapped ops ops' ->
  length (vars (run ops)) = length (vars (run ops'))
  /\ forall k x y, nth_error (vars (run ops)) k = Some x -> nth_error (vars (run ops')) k = Some y ->
       shape_of (vsto x) = shape_of (vsto y) /\ unspecified_of (vsto x) = unspecified_of (vsto y)
       /\ (forall i, in_box i (shape_of (vsto x)) ->
             get_elem (sheap (run ops)) (vsto x) i = get_elem (sheap (run ops')) (vsto y) i)
       /\ (is_sparse (vsto x) -> positive (shape_of (vsto x)) -> is_sparse (vsto y)
             /\ forall i, in_box i (shape_of (vsto x)) ->
                  (stored (sheap (run ops)) (vsto x) i <-> stored (sheap (run ops')) (vsto y) i)).
Proof.
  intros ops ops' H H' C C' S. pose proof (arun_swapped _ _ H H' C C' S) as M.
  destruct (C58_programs ops H) as [L P], (C58_programs ops' H') as [L' P'].
  inversion M as [f l l' F E1 E2]. rewrite <- E1, <- E2 in *. cbn [arrs] in *.
  assert (Ll : length l = length l') by (clear - F; induction F; cbn; congruence).
  split; [congruence|]. intros k x y Hx Hy. pose proof (forall2_nth _ _ _ F k) as N.
  assert (Hk : (k < length l)%nat) by (rewrite <- L; apply nth_error_Some; congruence).
  destruct (nth_error l k) as [a|] eqn:Ha; [|apply nth_error_None in Ha; lia].
  destruct (nth_error l' k) as [b|] eqn:Hb; [|contradiction].
  destruct (P k x a Hx Ha) as (P0 & P1 & P2 & P3 & P4), (P' k y b Hy Hb) as (Q0 & Q1 & Q2 & Q3 & Q4).
  destruct N as [c c' w sh u r g h A V]. cbn [a_shape a_unspec a_cls] in *.
  split; [congruence|]. split; [congruence|]. split.
  - intros i Hi. rewrite P1 in Hi. rewrite P3, Q3 by exact Hi. reflexivity.
  - intros Sx Hp. rewrite P1 in Hp.
    assert (Sc : sparse_class c = true) by (destruct (vsto x), c; try contradiction; reflexivity).
    assert (Sc' : sparse_class c' = true).
    { destruct A as [->|[->|[A1 A2]]]; [exact Sc| |destruct A2 as [-> | ->]; reflexivity].
      destruct (V eq_refl) as [V1 _]. destruct c; discriminate. }
    split; [destruct c'; try discriminate; destruct (vsto y); try contradiction; exact I|].
    intros i Hi. rewrite P1 in Hi. rewrite (P4 Sc Hp i Hi), (Q4 Sc' Hp i Hi). reflexivity.
Qed.
Print Assumptions C118_classes.

(** A conversion to the class the array has returns the array itself, so there
    the class is observable. *)
Theorem C118_own_class_refuted : exists ops ops', covered ops /\ covered ops' /\ Forall2 swapped ops ops'
  /\ exists k x y i, nth_error (vars (run ops)) k = Some x /\ nth_error (vars (run ops')) k = Some y
       /\ in_box i (shape_of (vsto x)) /\ get_elem (sheap (run ops)) (vsto x) i <> get_elem (sheap (run ops')) (vsto y) i.
Proof.
  assert (P : positive [2; 2]) by (repeat constructor; lia).
  exists [New CStrided nested_2x2 None; As 0 CStrided None; Assign 1 (XItem (IInt 0)) (OList (VSeq [VInt 9; VInt 8]))],
    [NewDM nested_2x2 None None None CStrided; As 0 CStrided None; Assign 1 (XItem (IInt 0)) (OList (VSeq [VInt 9; VInt 8]))].
  split; [|split; [|split]].
  - do 3 only 1: covered_step. all: cbn [supported allowed].
    + apply covered_nil.
    + exists [2; 2]. split; [repeat (split || constructor); cbn; discriminate|]. split; [exact I|discriminate].
    + eexists. split; [vm_compute; reflexivity|]. split; [exact P|]. split; [discriminate|]. split; [exact I|discriminate].
    + eexists. split; [vm_compute; reflexivity|]. split; [split; [exact P|index_ok]|]. intros j H. two_elements H.
  - do 3 only 1: covered_step. all: cbn [supported allowed].
    + apply covered_nil.
    + exists [2; 2]. split; [repeat (split || constructor); cbn; discriminate|]. split; [exact P|].
      split; [constructor; try discriminate; reflexivity|]. split; [exact I|discriminate].
    + eexists. split; [vm_compute; reflexivity|]. split; [exact P|]. split; [discriminate|]. split; [exact I|discriminate].
    + eexists. split; [vm_compute; reflexivity|]. split; [split; [exact P|index_ok]|]. intros j H. two_elements H.
  - constructor; [apply sp_new_dm; right; reflexivity|]. repeat (constructor; [apply sp_same|]). constructor.
  - exists O. eexists _, _, [0; 0]. split; [vm_compute; reflexivity|]. split; [vm_compute; reflexivity|].
    split; [vm_compute; repeat constructor; discriminate|]. vm_compute. discriminate.
Qed.
Print Assumptions C118_own_class_refuted.

(** With overlapping assignments the class is observable too. *)
Theorem C118_overlap_refuted : exists ops ops', covered_all ops /\ covered_all ops' /\ converting ops /\ converting ops'
  /\ Forall2 swapped ops ops'
  /\ exists k x y i, nth_error (vars (run ops)) k = Some x /\ nth_error (vars (run ops')) k = Some y
       /\ in_box i (shape_of (vsto x)) /\ get_elem (sheap (run ops)) (vsto x) i <> get_elem (sheap (run ops')) (vsto y) i.
Proof.
  assert (P : positive [2; 2]) by (repeat constructor; lia).
  exists ([New CStrided nested_2x2 None] ++ [Assign 0 upside (OVar 0)]),
    ([NewDM nested_2x2 None None None CStrided] ++ [Assign 0 upside (OVar 0)]).
  split; [|split; [|split; [|split; [|split]]]].
  - apply covered_all_add.
    + apply covered_too_covered_all, covered_covered_too. covered_step; [apply covered_nil|].
      exists [2; 2]. split; [repeat (split || constructor); cbn; discriminate|]. split; [exact I|discriminate].
    + right. eexists _, _, _, _. split; [reflexivity|]. split; [vm_compute; reflexivity|].
      split; [split; [exact I|split; [exact P|split; [index_ok|discriminate]]]|].
      eexists. split; [vm_compute; reflexivity|]. intros j J; exact J.
  - apply covered_all_add.
    + apply covered_too_covered_all, covered_covered_too. covered_step; [apply covered_nil|].
      exists [2; 2]. split; [repeat (split || constructor); cbn; discriminate|]. split; [exact P|].
      split; [constructor; try discriminate; reflexivity|]. split; [exact I|discriminate].
    + right. eexists _, _, _, _. split; [reflexivity|]. split; [vm_compute; reflexivity|].
      split; [split; [exact I|split; [exact P|split; [index_ok|discriminate]]]|].
      eexists. split; [vm_compute; reflexivity|]. intros j J; exact J.
  - intros b k c a x E. destruct b as [|o1 [|o2 [|o3 b]]]; discriminate.
  - intros b k c a x E. destruct b as [|o1 [|o2 [|o3 b]]]; discriminate.
  - constructor; [apply sp_new_dm; right; reflexivity|]. repeat (constructor; [apply sp_same|]). constructor.
  - exists O. eexists _, _, [0; 0]. split; [vm_compute; reflexivity|]. split; [vm_compute; reflexivity|].
    split; [vm_compute; repeat constructor; discriminate|]. vm_compute. discriminate.
Qed.
Print Assumptions C118_overlap_refuted.

(** Two programs: Strided and COO arrays, and DM and FlatCOO arrays. *)
Definition spelled (first : op) (c : cls) : list op :=
  [first;
   Slice 0 (XTuple [ISlice (Sl None None None); ISlice (Sl None None (Some (-1)))]);
   As 0 c (Some (VInt 2));
   Slice 0 (XItem (IInt 1));
   Assign 1 (XItem (IInt 0)) (OList (VSeq [VInt 9; VInt 8]));
   Assign 2 (XItem (IInt 0)) (OVar 3);
   As 2 CCSR None].
Definition spelling_1 := spelled (New CStrided nested_2x2 None) CCOO.
Definition spelling_2 := spelled (NewDM nested_2x2 None (Some [1; 0]) (Some [1]) CStrided) CFlatCOO.
Example C118_case : covered spelling_1 /\ covered spelling_2 /\ converting spelling_1 /\ converting spelling_2
  /\ Forall2 swapped spelling_1 spelling_2
  /\ map vsto (vars (run spelling_1)) <> map vsto (vars (run spelling_2))
  /\ reads_of (arun spelling_1) = [[VInt 8; VInt 9; VInt 3; VInt 4]; [VInt 9; VInt 8; VInt 4; VInt 3];
        [VInt 3; VInt 2; VInt 3; VInt 4]; [VInt 3; VInt 4]; [VInt 3; VInt 2; VInt 3; VInt 4]].
Proof.
  assert (P : positive [2; 2]) by (repeat constructor; lia).
  split; [|split; [|split; [|split; [|split; [|split]]]]].
  - unfold spelling_1, spelled. do 7 only 1: covered_step. all: cbn [supported allowed].
    + apply covered_nil.
    + exists [2; 2]. split; [repeat (split || constructor); cbn; discriminate|]. split; [exact I|discriminate].
    + eexists. split; [vm_compute; reflexivity|]. split; [exact P|]. split; [index_ok|]. split; [discriminate|intros []].
    + eexists. split; [vm_compute; reflexivity|]. split; [exact P|]. split; [discriminate|]. split; [discriminate|discriminate].
    + eexists. split; [vm_compute; reflexivity|]. split; [exact P|]. split; [index_ok|]. split; [discriminate|intros []].
    + eexists. split; [vm_compute; reflexivity|]. split; [split; [exact P|index_ok]|]. intros j J. two_elements J.
    + eexists. split; [vm_compute; reflexivity|]. split; [split; [exact I|]; split; [exact P|]; split; [index_ok|discriminate]|].
      split; [discriminate|]. eexists. split; [vm_compute; reflexivity|]. split; [left; discriminate|]. intros j J. exact J.
    + eexists. split; [vm_compute; reflexivity|]. split; [exact P|]. split; [discriminate|]. split; [reflexivity|].
      intros _. exists [0; 0], (VInt 3). split; [repeat constructor; lia|]. split; [vm_compute; reflexivity|]. split; discriminate.
  - unfold spelling_2, spelled. do 7 only 1: covered_step. all: cbn [supported allowed].
    + apply covered_nil.
    + exists [2; 2]. split; [repeat (split || constructor); cbn; discriminate|]. split; [exact P|]. split.
      { constructor; [reflexivity| |].
        - intros q E. injection E as <-. apply perm_swap.
        - intros q E. injection E as <-. split; repeat constructor; lia. }
      split; [exact I|discriminate].
    + eexists. split; [vm_compute; reflexivity|]. split; [exact P|]. split; [index_ok|]. split; [discriminate|]. discriminate.
    + eexists. split; [vm_compute; reflexivity|]. split; [exact P|]. split; [discriminate|]. split; [discriminate|discriminate].
    + eexists. split; [vm_compute; reflexivity|]. split; [exact P|]. split; [index_ok|]. split; [discriminate|]. discriminate.
    + eexists. split; [vm_compute; reflexivity|]. split; [split; [exact I|]; split; [exact P|]; split; [index_ok|discriminate]|].
      intros j J. two_elements J.
    + eexists. split; [vm_compute; reflexivity|]. split; [split; [exact I|]; split; [exact P|]; split; [index_ok|discriminate]|].
      split; [discriminate|]. eexists. split; [vm_compute; reflexivity|]. split; [left; discriminate|]. intros j J. exact J.
    + eexists. split; [vm_compute; reflexivity|]. split; [exact P|]. split; [discriminate|]. split; [reflexivity|].
      intros _. exists [0; 0], (VInt 3). split; [repeat constructor; lia|]. split; [vm_compute; reflexivity|]. split; discriminate.
  - intros b k c a x E. unfold spelling_1, spelled in E.
    do 7 (destruct b as [|? b]; [cbn [app] in E; try discriminate E|cbn [app] in E; injection E as <- E]).
    + injection E as <- <- <-. vm_compute. intros Q. injection Q as <-. tauto.
    + destruct b; discriminate E.
  - intros b k c a x E. unfold spelling_2, spelled in E.
    do 7 (destruct b as [|? b]; [cbn [app] in E; try discriminate E|cbn [app] in E; injection E as <- E]).
    + injection E as <- <- <-. vm_compute. intros Q. injection Q as <-. tauto.
    + destruct b; discriminate E.
  - unfold spelling_1, spelling_2, spelled.
    repeat match goal with |- Forall2 _ [] _ => constructor | |- Forall2 _ (_ :: _) _ => constructor end; try apply sp_same.
    + apply sp_new_dm; right; reflexivity.
    + apply sp_as. right. split; [now left|now right].
  - vm_compute. discriminate.
  - vm_compute. reflexivity.
Qed.

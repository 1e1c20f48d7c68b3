(** C58: programs over the library's arrays behave as the abstract machine of
    Machine.v says. *)
From Coq Require Import Sorting.Sorted Permutation ZifyBool.
From Verif Require Import Py SliceTools Basics Storage Spec SliceFacts IndexFacts
  CompressFacts ReduceFacts SolverFacts SolveFacts Repr ReprFacts ViewFacts BuildFacts SparseFacts
  ConvFacts FromFacts DMFacts ReadFacts MapFacts ChainFacts WriteFacts EffectFacts EqFacts PureFacts AliasFacts
  PropRead PropWrite PropIndex PropReach PropMore RefineFacts Machine.

(** ** What the operations return *)

Lemma based s h f : repr h s f -> dense_based s \/ sparse_based s.
Proof.
  revert f. induction s as [b|t|sh ind d|sh fi d|sh cr co d|sh ch a b c d|sh rd rsh rs ro d IH]; intros f Hr; cbn; auto.
  - destruct Hr as (E & [] & _).
  - destruct Hr as (g & Hg & _). exact (IH g Hg).
Qed.
Lemma dense_not_sparse s : dense_based s -> ~ is_sparse s.
Proof. destruct s; cbn; tauto. Qed.

Lemma class_view c s : is_class c s -> c <> CDM -> is_view_class s = view_class c.
Proof. destruct c, s; cbn; tauto || congruence. Qed.

Lemma dm_gen_view is_buffer fo h src a dims part v s h' :
  (forall h src a s h', fo h src a = Ok (s, h') -> is_view_class s = v) ->
  dm_fromobject_gen is_buffer fo h src a dims part = Ok (s, h') -> is_view_class s = v.
Proof.
  intros Hfo H. unfold dm_fromobject_gen in H.
  apply bind_ok in H. destruct H as (? & _ & H). apply bind_ok in H. destruct H as (? & _ & H).
  apply bind_ok in H. destruct H as (? & _ & H). apply bind_ok in H. destruct H as ([[? ?] ?] & _ & H).
  apply bind_ok in H. destruct H as ([st h1] & E & H). apply bind_ok in H. destruct H as (? & _ & H).
  apply bind_ok in H. destruct H as (r & Em & H). injection H as <- <-. apply mk_dm_eq in Em. destruct Em as (rsh & ->).
  cbn [is_view_class]. eapply Hfo; exact E.
Qed.
Lemma flat_view c h src a s h' : flat_fromobject c h src a = Ok (s, h') -> is_view_class s = view_class c.
Proof.
  intros H. pose proof (flat_fromobject_made _ _ _ _ _ _ H) as [C _]. apply class_view; [exact C|].
  intros ->. discriminate H.
Qed.
Lemma dm_view h src a dims part c s h' : dm_fromobject h src a dims part c = Ok (s, h') -> is_view_class s = view_class c.
Proof.
  destruct c; cbn [dm_fromobject]; apply dm_gen_view; intros h0 s0 a0 r0 h0' H; try (eapply flat_view; exact H).
  eapply dm_gen_view; [|exact H]. intros h1 s1 a1 r1 h1' H1. eapply (flat_view CStrided); exact H1.
Qed.
Lemma fromobject_view c h src a s h' : fromobject c h src a = Ok (s, h') -> is_view_class s = view_class c.
Proof. destruct c; cbn [fromobject]; intros H; match type of H with dm_fromobject _ _ _ _ _ _ = _ => exact (dm_view _ _ _ _ _ _ _ _ H) | _ => exact (flat_view _ _ _ _ _ _ H) end. Qed.
Lemma as_view c h s u t h' : as_storage c h s u = Ok (t, h') -> is_view_class t = view_class c.
Proof. destruct c; cbn [as_storage]; intros H; match type of H with dm_fromobject _ _ _ _ _ _ = _ => exact (dm_view _ _ _ _ _ _ _ _ H) | _ => exact (flat_view _ _ _ _ _ _ H) end. Qed.

Lemma copy_view : forall s h f u t h', repr h s f -> copy h s u = Ok (t, h') ->
  is_view_class t = is_view_class s /\ (forall c, is_class c s -> is_class c t).
Proof.
  induction s as [b|t|sh ind d|sh fi d|sh cr co d|sh ch a b c d|sh rd rsh rs ro d IH]; intros h f u r h' Hr H.
  1-5: destruct (copy_ok _ h f u Hr) as (t' & h1 & E1 & _ & _ & _ & _ & _ & _ & E); rewrite H in E1; injection E1 as <- <-;
     destruct r; try contradiction; cbn; auto.
  - destruct Hr as (E & [] & _).
  - destruct Hr as (g & Hg & _). cbn [copy] in H. apply bind_ok in H. destruct H as ([d' h1] & E & H).
    apply bind_ok in H. destruct H as (x & X & H). injection H as <- <-. apply mk_dm_eq in X. destruct X as (rsh' & ->).
    destruct (IH _ _ _ _ _ Hg E) as (H1 & _). cbn. split; [exact H1|]. intros [] Hc; exact Hc.
Qed.

Lemma getitem_view_class : forall s h ix s' h', getitem h s ix = Ok (ISto s', h') ->
  is_view_class s' = is_view_class s.
Proof.
  intros s h ix s' h' H. apply getitem_addrs in H. destruct H as [(A & B & _)|(A & B & _)].
  - now rewrite (dense_view _ A), (dense_view _ B).
  - now rewrite (sparse_view _ A), (sparse_view _ B).
Qed.

Lemma In_entries_of sh u f i : In i (map fst (entries_of sh u f)) <-> in_box i sh /\ f i <> u.
Proof.
  unfold entries_of, specified. rewrite in_map_iff. split.
  - intros ([k v] & <- & Hin). apply filter_In in Hin. destruct Hin as [Hin Hv]. apply in_map_iff in Hin.
    destruct Hin as (k' & Ek & Hk). injection Ek as -> <-. cbn [fst snd] in *. split; [now apply In_cart|].
    intros E. rewrite E, veqb_refl in Hv. discriminate.
  - intros [Hi Hn]. exists (i, f i). split; [reflexivity|]. apply filter_In. split.
    + apply in_map_iff. exists i. split; [reflexivity|now apply In_cart].
    + cbn [snd]. destruct (veqb (f i) u) eqn:E; [|reflexivity]. apply veqb_eq in E. contradiction.
Qed.

Lemma copy_entries h s E u : entries h s E ->
  exists s' h', copy h s u = Ok (s', h')
    /\ entries h' s' (map_snd (conv_value (unspecified_of s) (new_unspec (unspecified_of s) u)) E).
Proof.
  intros HE. set (u' := new_unspec (unspecified_of s) u).
  destruct s as [b|t|sh ind d|sh fi d|sh cr co d|sh ch a b c d|sh rd rsh rs ro d]; try contradiction; cbn [copy unspecified_of] in *.
  - pose proof HE as (H1 & H2 & H3 & H4 & H5 & H6 & H7 & H8).
    rewrite (buf_copy_ok h d _ u H4). cbn [bind]. change (new_unspec (bunspec d) u) with u'.
    unfold mk_coo. rewrite H5. change (pyget [zlen sh; zlen E] 1) with (@Ok Z (zlen E)). cbn [bind].
    cbn [bsize]. unfold assert_. rewrite zlen_map, Z.eqb_refl. cbn [bind].
    eexists _, _. split; [reflexivity|].
    cbn [entries]. split; [exact H1|]. split; [exact H2|]. split; [now apply map_snd_ordered|].
    split.
    { rewrite map_snd_snd. rewrite <- (zlen_map snd E). apply holds_new_map. }
    rewrite map_snd_zlen. split; [exact H5|]. split; [exact H6|]. split.
    { rewrite (map_ext (fun k => column k (map_snd (conv_value (bunspec d) u') E)) (fun k => column k E))
        by (intros; apply map_snd_column). eapply holds_extends; [apply extends_alloc|exact H7]. }
    cbn [baddr]. pose proof (holds_lt _ _ _ H7). split; [lia|apply H8].
  - pose proof HE as (H1 & H2 & H3 & H4 & H5 & H6).
    rewrite (buf_copy_ok h d _ u H4). cbn [bind]. change (new_unspec (bunspec d) u) with u'.
    assert (Hz : bsize fi = zlen (map snd E)).
    { destruct H5 as (l & _ & _ & Hs & _). rewrite Hs, !zlen_map. reflexivity. }
    unfold mk_flatcoo. cbn [bsize]. unfold assert_. rewrite Hz, Z.eqb_refl. cbn [bind].
    eexists _, _. split; [reflexivity|].
    cbn [entries]. split; [exact H1|]. split; [exact H2|]. split; [now apply map_snd_ordered|].
    split.
    { rewrite map_snd_snd. apply holds_new_map. }
    split.
    { eapply holds_extends; [apply extends_alloc|]. unfold map_snd. rewrite map_map. exact H5. }
    cbn [baddr]. pose proof (holds_lt _ _ _ H5). split; [lia|apply H6].
  - pose proof HE as (H1 & H2 & H3 & H4 & H5 & H6 & H7 & H8).
    rewrite (buf_copy_ok h d _ u H4). cbn [bind]. change (new_unspec (bunspec d) u) with u'.
    destruct sh as [|n [|m [|? ?]]]; try (cbn in H2; lia).
    assert (Hn : 0 <= n) by now inversion H1.
    assert (Hz : bsize co = zlen (map snd E)).
    { destruct H6 as (l & _ & _ & Hs & _). rewrite Hs. unfold column. rewrite !zlen_map. reflexivity. }
    assert (Hz2 : bsize cr = n + 1).
    { destruct H5 as (l & _ & _ & Hs & _). rewrite Hs, zlen_map, zseq_length. cbn [nth]. lia. }
    unfold mk_csr. cbn [bsize]. unfold assert_. change (zlen [n; m] =? 2) with true. cbn [bind].
    change (pyget [n; m] 0) with (@Ok Z n). cbn [bind]. rewrite Hz2, Z.eqb_refl. cbn [bind].
    rewrite Hz, Z.eqb_refl. cbn [bind].
    eexists _, _. split; [reflexivity|].
    cbn [entries]. split; [exact H1|]. split; [exact H2|]. split; [now apply map_snd_ordered|].
    split.
    { rewrite map_snd_snd. apply holds_new_map. }
    rewrite !map_snd_column. split; [eapply holds_extends; [apply extends_alloc|exact H5]|].
    split; [eapply holds_extends; [apply extends_alloc|exact H6]|].
    cbn [baddr]. pose proof (holds_lt _ _ _ H5). pose proof (holds_lt _ _ _ H6). split; [lia|]. split; [lia|apply H8].
Qed.

Lemma list_shape_regular : forall sh v, regular sh v -> list_shape v = sh.
Proof.
  induction sh as [|n sh IH]; intros v H; cbn [regular] in H.
  - destruct v; try reflexivity. contradiction.
  - destruct v as [| | |l]; try contradiction. destruct H as (E & H0 & H). cbn [list_shape]. rewrite E. f_equal.
    destruct l as [|x l]; [symmetry; apply H0; rewrite <- E; reflexivity|]. inversion H; subst. now apply IH.
Qed.

Lemma In_all_indices sh i : In i (all_indices sh) <-> in_box i sh.
Proof.
  revert i. induction sh as [|n sh IH]; intros i; cbn [all_indices].
  - split; [intros [<-|[]]; constructor|]. intros H. inversion H. now left.
  - rewrite in_flat_map. split.
    + intros (x & Hx & Hin). apply in_map_iff in Hin. destruct Hin as (j & <- & Hj). apply In_zseq in Hx.
      constructor; [exact Hx|now apply IH].
    + intros H. inversion H as [|x ? j ? Hx Hj]; subst. exists x. split; [now apply In_zseq|].
      apply in_map_iff. exists j. split; [reflexivity|now apply IH].
Qed.

Lemma same_index_iff i j : same_index i j = true <-> i = j.
Proof. unfold same_index. destruct (list_eq_dec Z.eq_dec i j); split; congruence. Qed.

(** ** The simulation relation *)
Record shows (m : machine) (h : heap) (x : var) (a : arr) : Prop := {
  sw_shape : shape_of (vsto x) = a_shape a;
  sw_unspec : unspecified_of (vsto x) = a_unspec a;
  sw_cls : is_class (a_cls a) (vsto x);
  sw_views : is_view_class (vsto x) = a_views a;
  sw_home : a_home a = origin x;
  sw_values : exists f, repr h (vsto x) f /\ forall i, in_box i (a_shape a) -> f i = aread m a i;
  sw_stored : is_sparse (vsto x) -> exists E, entries h (vsto x) E
     /\ forall i, in_box i (a_shape a) -> (In i (map fst E) <-> a_has a i = true);
  sw_all : ~ is_sparse (vsto x) -> forall i, a_has a i = true;
  sw_at : a_views a = false -> forall i, a_at a i = i }.

(** Arrays with the same origin: two views of one list, or the same sparse array. *)
Definition shares (x y : var) (a b : arr) : Prop :=
  (dense_based (vsto x) /\ dense_based (vsto y) /\ data_addr (vsto x) = data_addr (vsto y)
    /\ forall i j, in_box i (a_shape a) -> in_box j (a_shape b) ->
         (spot (vsto x) i = spot (vsto y) j <-> a_at a i = a_at b j))
  \/ (sparse_based (vsto x) /\ vsto x = vsto y /\ a = b).

Record refines (st : state) (m : machine) : Prop := {
  rf_len : length (vars st) = length (arrs m);
  rf_shows : forall k x a, nth_error (vars st) k = Some x -> nth_error (arrs m) k = Some a -> shows m (sheap st) x a;
  rf_shares : forall k k' x y a b, nth_error (vars st) k = Some x -> nth_error (arrs m) k = Some a ->
    nth_error (vars st) k' = Some y -> nth_error (arrs m) k' = Some b -> origin x = origin y -> shares x y a b }.

Lemma repr_entries_lookup h s f E i : repr h s f -> entries h s E -> in_box i (shape_of s) ->
  f i = lookup E (unspecified_of s) i.
Proof.
  intros Hr HE Hi. pose proof (repr_get h s f i Hr Hi) as H1.
  pose proof (repr_get h s _ i (repr_entries h s E HE) Hi) as H2. congruence.
Qed.

Lemma shows_extends m m' h h' x a : shows m h x a -> extends h h' ->
  (forall p, content m' (a_home a) p = content m (a_home a) p) -> shows m' h' x a.
Proof.
  intros [H1 H2 H3 H4 H5 (f & Hf & Hv) H7 H8 H9] Hx Hc. constructor; auto.
  - exists f. split; [eapply repr_extends; eassumption|]. intros i Hi. rewrite Hv by exact Hi. unfold aread.
    now rewrite Hc.
  - intros Hs. destruct (H7 Hs) as (E & HE & HE'). exists E. split; [|exact HE'].
    eapply entries_frame; [|exact HE]. intros b Hb. destruct Hx as [t ->]. apply nth_error_app1.
    eapply repr_addrs; [exact (repr_entries h _ E HE)|exact Hb].
Qed.

Lemma nth_error_snoc {A} (l : list A) x k y : nth_error (l ++ [x]) k = Some y ->
  nth_error l k = Some y \/ (k = length l /\ y = x).
Proof.
  intros H. destruct (Nat.lt_ge_cases k (length l)) as [Hk|Hk].
  - left. now rewrite nth_error_app1 in H.
  - right. rewrite nth_error_app2 in H by exact Hk. destruct (k - length l)%nat as [|n] eqn:E.
    + injection H as <-. split; [lia|reflexivity].
    + destruct n; discriminate.
Qed.

(** An operation that returns a new array. *)
Lemma refines_new st m s h' sl c v sh u value has :
  separated st -> refines st m -> extends (sheap st) h' ->
  let m' := anew m c v sh u value has in
  shows m' h' (Var s (length (vars st)) sl) (Arr c v sh u (length (arrs m)) (fun i => i) has) ->
  refines (St h' (vars st ++ [Var s (length (vars st)) sl])) m'.
Proof.
  intros Hs [L S Sh] Hx m' Hnew. constructor; cbn [vars sheap arrs m' anew].
  - rewrite !app_length. cbn. lia.
  - intros k x a Hk Ha. apply nth_error_snoc in Hk, Ha. destruct Hk as [Hk|[-> ->]], Ha as [Ha|[Ek ->]].
    + eapply shows_extends; [eapply S; eassumption|exact Hx|]. intros p. unfold m', anew. cbn [content].
      replace (Nat.eqb _ _) with false; [reflexivity|]. symmetry. apply Nat.eqb_neq.
      rewrite (sw_home _ _ _ _ (S k x a Hk Ha)). pose proof (sp_origin _ Hs x (nth_in _ _ _ Hk)). lia.
    + subst k. exfalso. assert (length (arrs m) < length (vars st))%nat by (apply nth_error_Some; congruence). lia.
    + exfalso. assert (length (vars st) < length (arrs m))%nat by (apply nth_error_Some; congruence). lia.
    + exact Hnew.
  - intros k k' x y a b Hk Ha Hk' Hb E. apply nth_error_snoc in Hk, Ha, Hk', Hb.
    destruct Hk as [Hk|[-> ->]], Ha as [Ha|[Ek ->]];
      try (subst; exfalso; assert (length (arrs m) < length (vars st))%nat by (apply nth_error_Some; congruence); lia);
      try (exfalso; assert (length (vars st) < length (arrs m))%nat by (apply nth_error_Some; congruence); lia);
    destruct Hk' as [Hk'|[-> ->]], Hb as [Hb|[Ek' ->]];
      try (subst; exfalso; assert (length (arrs m) < length (vars st))%nat by (apply nth_error_Some; congruence); lia);
      try (exfalso; assert (length (vars st) < length (arrs m))%nat by (apply nth_error_Some; congruence); lia).
    + eapply Sh with (k := k) (k' := k'); eassumption.
    + cbn in E. pose proof (sp_origin _ Hs x (nth_in _ _ _ Hk)). lia.
    + cbn in E. pose proof (sp_origin _ Hs y (nth_in _ _ _ Hk')). lia.
    + destruct Hnew as [N1 N2 N3 N4 N5 (f & Hf & _) N7 N8 N9]. cbn [vsto a_shape a_at] in *.
      destruct (based s h' f Hf) as [D|D]; [left|right; cbn [vsto]; auto].
      cbn [vsto a_shape a_at]. split; [exact D|]. split; [exact D|]. split; [reflexivity|].
      intros i j Hi Hj. split; [|congruence]. rewrite <- N1 in Hi, Hj. now apply (spot_inj s h' f).
Qed.

(** An operation that returns a view. *)
Lemma refines_view st m k x a s sl sh src :
  separated st -> refines st m -> nth_error (vars st) k = Some x -> nth_error (arrs m) k = Some a ->
  dense_based (vsto x) -> dense_based s -> data_addr s = data_addr (vsto x) -> shape_of s = sh ->
  unspecified_of s = unspecified_of (vsto x) -> (forall c, is_class c (vsto x) -> is_class c s) ->
  (forall j, in_box j sh -> in_box (src j) (a_shape a) /\ spot s j = spot (vsto x) (src j)) ->
  (exists f, repr (sheap st) s f) ->
  refines (St (sheap st) (vars st ++ [Var s (origin x) sl])) (aview m a sh src).
Proof.
  intros Hs [L S Sh] Hk Ha Dx Ds Ed Esh Eu Hc Hsrc [f Hf]. pose proof (S k x a Hk Ha) as X.
  assert (Hlt : (k < length (vars st))%nat) by (apply nth_error_Some; congruence).
  assert (New : forall k' y b, nth_error (vars st ++ [Var s (origin x) sl]) k' = Some y ->
    nth_error (arrs (aview m a sh src)) k' = Some b ->
    (nth_error (vars st) k' = Some y /\ nth_error (arrs m) k' = Some b)
    \/ (y = Var s (origin x) sl /\ b = Arr (a_cls a) (a_views a) sh (a_unspec a) (a_home a)
                          (fun j => a_at a (src j)) (fun j => a_has a (src j)))).
  { intros k' y b Hk' Hb. cbn [arrs aview] in Hb. apply nth_error_snoc in Hk', Hb.
    destruct Hk' as [Hk'|[-> ->]], Hb as [Hb|[Ek ->]]; auto.
    - subst k'. exfalso. assert (length (arrs m) < length (vars st))%nat by (apply nth_error_Some; congruence). lia.
    - exfalso. assert (length (vars st) < length (arrs m))%nat by (apply nth_error_Some; congruence). lia. }
  assert (Xns : forall i, a_has a i = true) by (apply (sw_all _ _ _ _ X), dense_not_sparse, Dx).
  constructor.
  - cbn [vars arrs aview]. rewrite !app_length. cbn. lia.
  - cbn [vars sheap]. intros k' y b Hk' Hb. destruct (New k' y b Hk' Hb) as [[H1 H2]|[-> ->]].
    + eapply shows_extends; [eapply S; eassumption|apply extends_refl|reflexivity].
    + constructor; cbn [vsto a_shape a_unspec a_cls a_views a_home origin a_has a_at].
      * exact Esh.
      * rewrite Eu. apply X.
      * apply Hc, X.
      * rewrite <- (sw_views _ _ _ _ X). now rewrite (dense_view _ Dx), (dense_view _ Ds).
      * apply X.
      * exists f. split; [exact Hf|]. intros i Hi.
        destruct (repr_spot s _ f Ds Hf) as (l & Hl & Hsp). destruct (sw_values _ _ _ _ X) as (g & Hg & Hv).
        destruct (repr_spot _ _ g Dx Hg) as (l' & Hl' & Hsp'). rewrite Ed, Hl' in Hl. injection Hl as <-.
        destruct (Hsrc i Hi) as [Hb' Es]. rewrite <- Esh in Hi. rewrite (proj2 (Hsp i Hi)), Es.
        rewrite <- (sw_shape _ _ _ _ X) in Hb'. rewrite <- (proj2 (Hsp' _ Hb')).
        rewrite (sw_shape _ _ _ _ X) in Hb'. rewrite (Hv _ Hb'). reflexivity.
      * intros Hss. exfalso. exact (dense_not_sparse _ Ds Hss).
      * intros _ i. apply Xns.
      * intros Hv. exfalso. rewrite <- (sw_views _ _ _ _ X), (dense_view _ Dx) in Hv. discriminate.
  - cbn [vars sheap]. intros k1 k2 y z b c Hk1 Hb Hk2 Hc2 E.
    assert (G : forall k1 y b, nth_error (vars st) k1 = Some y -> nth_error (arrs m) k1 = Some b -> origin y = origin x ->
      dense_based (vsto y) /\ data_addr (vsto y) = data_addr (vsto x)
      /\ forall i j, in_box i (a_shape b) -> in_box j (a_shape a) ->
           (spot (vsto y) i = spot (vsto x) j <-> a_at b i = a_at a j)).
    { intros k3 y3 b3 H1 H2 H3. destruct (Sh k3 k y3 x b3 a H1 H2 Hk Ha H3) as [(A & B & C & D)|(A & B & C)]; [tauto|].
      exfalso. rewrite B in A. pose proof (sparse_view _ A) as V. rewrite (dense_view _ Dx) in V. discriminate. }
    destruct (New k1 y b Hk1 Hb) as [[H1 H2]|[-> ->]], (New k2 z c Hk2 Hc2) as [[H3 H4]|[-> ->]].
    + eapply Sh with (k := k1) (k' := k2); eassumption.
    + left. cbn [vsto origin a_shape a_at] in *. destruct (G k1 y b H1 H2 E) as (G1 & G2 & G3).
      split; [exact G1|]. split; [exact Ds|]. split; [congruence|]. intros i j Hi Hj. destruct (Hsrc j Hj) as [Hj1 ->].
      now apply G3.
    + left. cbn [vsto origin a_shape a_at] in *. destruct (G k2 z c H3 H4 (eq_sym E)) as (G1 & G2 & G3).
      split; [exact Ds|]. split; [exact G1|]. split; [congruence|]. intros i j Hi Hj. destruct (Hsrc i Hi) as [Hi1 ->].
      specialize (G3 j (src i) Hj Hi1). split; intros Q; symmetry; now apply G3.
    + left. cbn [vsto origin a_shape a_at] in *. destruct (G k x a Hk Ha eq_refl) as (G1 & G2 & G3).
      split; [exact Ds|]. split; [exact Ds|]. split; [reflexivity|]. intros i j Hi Hj.
      destruct (Hsrc i Hi) as [Hi1 ->], (Hsrc j Hj) as [Hj1 ->]. now apply G3.
Qed.

(** The same array bound to another variable. *)
Lemma refines_alias st m k x a sl :
  refines st m -> nth_error (vars st) k = Some x -> nth_error (arrs m) k = Some a ->
  refines (St (sheap st) (vars st ++ [Var (vsto x) (origin x) sl])) (aview m a (a_shape a) (fun i => i)).
Proof.
  intros [L S Sh] Hk Ha.
  assert (Ea : arrs (aview m a (a_shape a) (fun i => i)) = arrs m ++ [a]) by (destruct a; reflexivity).
  assert (New : forall k' y b, nth_error (vars st ++ [Var (vsto x) (origin x) sl]) k' = Some y ->
    nth_error (arrs m ++ [a]) k' = Some b ->
    exists k0 y0, nth_error (vars st) k0 = Some y0 /\ nth_error (arrs m) k0 = Some b /\ vsto y = vsto y0 /\ origin y = origin y0).
  { intros k' y b Hk' Hb. apply nth_error_snoc in Hk', Hb.
    destruct Hk' as [Hk'|[-> ->]], Hb as [Hb|[Ek ->]].
    - exists k', y. auto.
    - subst k'. exfalso. assert (length (arrs m) < length (vars st))%nat by (apply nth_error_Some; congruence). lia.
    - exfalso. assert (length (vars st) < length (arrs m))%nat by (apply nth_error_Some; congruence). lia.
    - exists k, x. auto. }
  constructor; rewrite ?Ea; cbn [vars sheap].
  - rewrite !app_length. cbn. lia.
  - intros k' y b Hk' Hb. destruct (New k' y b Hk' Hb) as (k0 & y0 & H1 & H2 & H3 & H4).
    destruct (S k0 y0 b H1 H2) as [X1 X2 X3 X4 X5 X6 X7 X8 X9].
    constructor; rewrite ?H3, ?H4; auto.
  - intros k1 k2 y z b c Hk1 Hb Hk2 Hc E.
    destruct (New k1 y b Hk1 Hb) as (k3 & y3 & H1 & H2 & H3 & H4).
    destruct (New k2 z c Hk2 Hc) as (k4 & y4 & G1 & G2 & G3 & G4).
    unfold shares. rewrite H3, G3. apply (Sh k3 k4 y3 y4 b c H1 H2 G1 G2). congruence.
Qed.

(** A new array. *)
Lemma is_sparse_dec s : is_sparse s \/ ~ is_sparse s.
Proof. destruct s; cbn; auto. Qed.
Lemma refines_made st m s h' sl c v sh u value has f :
  separated st -> refines st m -> extends (sheap st) h' ->
  shape_of s = sh -> unspecified_of s = u -> is_class c s -> is_view_class s = v ->
  repr h' s f -> (forall i, in_box i sh -> f i = value i) ->
  (is_sparse s -> exists E, entries h' s E /\ forall i, in_box i sh -> (In i (map fst E) <-> has i = true)) ->
  (~ is_sparse s -> forall i, has i = true) ->
  refines (St h' (vars st ++ [Var s (length (vars st)) sl])) (anew m c v sh u value has).
Proof.
  intros Hs Hr Hx Esh Eu Hc Hv Hf Hval Hsp Hall.
  apply (refines_new st m s h' sl c v sh u value has Hs Hr Hx).
  constructor; cbn [vsto a_shape a_unspec a_cls a_views a_home origin a_has a_at]; auto.
  - symmetry. apply Hr.
  - exists f. split; [exact Hf|]. intros i Hi. unfold aread, anew. cbn [a_has a_home a_at a_unspec content].
    rewrite Nat.eqb_refl. destruct (is_sparse_dec s) as [D|D]; [|rewrite Hall by exact D; now apply Hval].
    destruct (Hsp D) as (E & HE & Hin). specialize (Hin i Hi). destruct (has i); [now apply Hval|].
    rewrite (repr_entries_lookup h' s f E i Hf HE) by now rewrite Esh. rewrite Eu. apply lookup_absent.
    intros H. apply Hin in H. discriminate.
Qed.

Lemma sparse_not_dm s : is_class CDM s -> ~ is_sparse s.
Proof. destruct s; cbn; tauto. Qed.
Lemma class_sparse c s : is_class c s -> is_sparse s -> sparse_class c = true.
Proof. destruct c, s; cbn; tauto || auto. Qed.
Lemma class_dense c s : is_class c s -> ~ is_sparse s -> sparse_class c = false.
Proof. destruct c, s; cbn; tauto || auto. Qed.
Lemma stores_dense c u value i : sparse_class c = false -> stores c u value i = true.
Proof. unfold stores. now intros ->. Qed.
Lemma stores_sparse c u value i : sparse_class c = true -> (stores c u value i = true <-> value i <> u).
Proof.
  unfold stores. intros ->. destruct (veqb (value i) u) eqn:E; cbn [negb].
  - apply veqb_eq in E. split; [discriminate|congruence].
  - split; [|auto]. intros _ H. rewrite H, veqb_refl in E. discriminate.
Qed.

Lemma refines_step_new st m c v u : separated st -> good st -> refines st m -> allowed st (New c v u) ->
  refines (fst (step st (New c v u))) (astep m (New c v u)).
Proof.
  intros Hs Hg Hr (sh & Hreg & Hc & Hsp).
  destruct (C22_fromobject_elements c (sheap st) v sh u Hreg Hc Hsp) as (s & h' & E & C & Esh & Eu & [f Hf] & Hel).
  cbn [step astep]. unfold bind_var. rewrite E. cbn [fst]. rewrite (list_shape_regular sh v Hreg).
  assert (Hval : forall i, in_box i sh -> f i = renamed VNone (chosen VNone u) (list_value v i)).
  { intros i Hi. destruct (Hel i Hi) as (x & Hx & H1 & H2). unfold list_value. rewrite Hx.
    pose proof (repr_get h' s f i Hf ltac:(now rewrite Esh)) as G. unfold renamed.
    destruct (veqb x VNone) eqn:V.
    - apply veqb_eq in V. rewrite H1 in G by exact V. congruence.
    - assert (V' : x <> VNone) by (intros ->; discriminate V). rewrite H2 in G by exact V'. congruence. }
  eapply refines_made with (f := f); auto.
  - eapply fromobject_extends; exact E.
  - eapply fromobject_view; exact E.
  - intros D. pose proof (class_sparse c s C D) as Sc.
    assert (Hsrc : source_repr (sheap st) (SrcSeq v) (nested_elem v)) by (exists sh; split; [exact Hreg|reflexivity]).
    pose proof (source_reads (sheap st) (SrcSeq v) (nested_elem v) u Hsrc) as Hreads.
    cbn [get_shape] in Hreads. rewrite (regular_shape sh v Hreg) in Hreads.
    set (g := fo_value (SrcSeq v) (fo_unspecified u) (nested_elem v)) in *.
    assert (Hck : class_ok c sh (chosen VNone u) g).
    { destruct c; try discriminate Sc; cbn [class_rank class_ok] in *; auto. split; [exact Hc|].
      destruct (Hsp eq_refl) as (i & x & Hi & Hx & H1 & H2). exists i. split; [exact Hi|].
      unfold g, fo_value, nested_elem. rewrite Hx. now apply conv_differs. }
    destruct (build_class c (sheap st) (SrcSeq v) (fo_unspecified u) sh (nested_elem v) I Hreads Hck)
        as (s2 & h2 & E1 & E2 & E3 & E4 & E5 & E6 & E7 & E8).
    assert (E' : flat_fromobject c (sheap st) (SrcSeq v) (fo_unspecified u) = Ok (s, h')) by (destruct c; try exact E; discriminate Sc).
    rewrite E1 in E'. injection E' as -> ->. eexists. split; [exact (E8 D)|].
    intros i Hi. rewrite In_entries_of. rewrite stores_sparse by exact Sc.
    change (fo_get_unspec (SrcSeq v) (fo_unspecified u)) with (chosen VNone u).
    change (fo_value (SrcSeq v) (fo_unspecified u) (nested_elem v) i)
      with (renamed VNone (chosen VNone u) (list_value v i)). tauto.
  - intros D i. apply stores_dense. now apply (class_dense c s).
Qed.

Lemma refines_step_newdm st m v u d p c : separated st -> good st -> refines st m -> allowed st (NewDM v u d p c) ->
  refines (fst (step st (NewDM v u d p c))) (astep m (NewDM v u d p c)).
Proof.
  intros Hs Hg Hr (sh & Hreg & Hp & Hm & Hrk & Hsp).
  destruct (C28_dm_elements c (sheap st) v sh u d p Hreg Hp Hm Hrk Hsp)
    as (rd & rsh & rst & ro & dd & h' & E & C & Eu & [f Hf] & Hel).
  cbn [step astep]. unfold bind_var. rewrite E. cbn [fst]. rewrite (list_shape_regular sh v Hreg).
  eapply refines_made with (f := f); auto.
  - eapply dm_fromobject_extends; exact E.
  - exact I.
  - eapply dm_view; exact E.
  - intros i Hi. destruct (Hel i Hi) as (x & Hx & H1 & H2). unfold list_value. rewrite Hx.
    pose proof (repr_get h' _ f i Hf Hi) as G. unfold renamed.
    destruct (veqb x VNone) eqn:V.
    + apply veqb_eq in V. rewrite H1 in G by exact V. congruence.
    + assert (V' : x <> VNone) by (intros ->; discriminate V). rewrite H2 in G by exact V'. congruence.
  - intros [].
Qed.

(** What [same_elements] says about the values. *)
Lemma same_elements_renamed m h x a h' t u f : shows m h x a -> same_elements h (vsto x) h' t u -> repr h' t f ->
  forall i, in_box i (a_shape a) -> f i = renamed (a_unspec a) u (aread m a i).
Proof.
  intros X [Esh Hel] Hf i Hi. rewrite <- (sw_shape _ _ _ _ X) in Hi. destruct (Hel i Hi) as (v & Hv & H1 & H2).
  destruct (sw_values _ _ _ _ X) as (g & Hg & Hval).
  rewrite (repr_get _ _ g i Hg Hi) in Hv. injection Hv as Ev.
  pose proof (repr_get h' t f i Hf ltac:(now rewrite Esh)) as G.
  rewrite (sw_shape _ _ _ _ X) in Hi. rewrite <- (Hval i Hi), Ev. unfold renamed. rewrite <- (sw_unspec _ _ _ _ X).
  destruct (veqb v (unspecified_of (vsto x))) eqn:V.
  - apply veqb_eq in V. rewrite H1 in G by exact V. congruence.
  - assert (V' : v <> unspecified_of (vsto x)) by (intros ->; rewrite veqb_refl in V; discriminate V).
    rewrite H2 in G by exact V'. congruence.
Qed.

Lemma rf_arr st m k x : refines st m -> nth_error (vars st) k = Some x ->
  exists a, nth_error (arrs m) k = Some a /\ shows m (sheap st) x a.
Proof.
  intros Hr Hk. destruct (nth_error (arrs m) k) as [a|] eqn:Ha.
  - exists a. split; [reflexivity|]. now apply (rf_shows _ _ Hr k).
  - exfalso. apply nth_error_None in Ha. rewrite <- (rf_len _ _ Hr) in Ha.
    assert (k < length (vars st))%nat by (apply nth_error_Some; congruence). lia.
Qed.

Lemma refines_step_asdm st m k d p c u : separated st -> good st -> refines st m -> allowed st (AsDM k d p c u) ->
  refines (fst (step st (AsDM k d p c u))) (astep m (AsDM k d p c u)).
Proof.
  intros Hs Hg Hr (x & Ek & Hp & Hm & Hrk & Hst). destruct (rf_arr st m k x Hr Ek) as (a & Ha & X).
  destruct (Hg x (nth_in _ _ _ Ek)) as [Hv _].
  destruct (C24_as_DM (sheap st) (vsto x) d p c u Hv Hp Hm Hrk Hst) as (t & h' & E & C & Eu & [f Hf] & Hx & Hel).
  cbn [step astep]. unfold with_var, awith, bind_var. rewrite Ek, Ha, E. cbn [fst].
  eapply refines_made with (f := f); auto.
  - rewrite (proj1 Hel). apply X.
  - rewrite Eu. now rewrite (sw_unspec _ _ _ _ X).
  - eapply dm_view; exact E.
  - intros i Hi. rewrite (same_elements_renamed _ _ _ _ _ _ _ f X Hel Hf i Hi). now rewrite (sw_unspec _ _ _ _ X).
  - intros D. exfalso. now apply (sparse_not_dm t).
Qed.

Lemma same_cls_class c a s : is_class a s -> same_cls c a = is_same_class c s.
Proof. destruct c, a, s; cbn; tauto || reflexivity. Qed.

Lemma refines_step_as st m k c u : separated st -> good st -> refines st m -> allowed st (As k c u) ->
  refines (fst (step st (As k c u))) (astep m (As k c u)).
Proof.
  intros Hs Hg Hr (x & Ek & Hp & Hne & Hc & Hst). destruct (rf_arr st m k x Hr Ek) as (a & Ha & X).
  destruct (Hg x (nth_in _ _ _ Ek)) as [Hv _].
  destruct (C24_conversion c (sheap st) (vsto x) u Hv Hp Hne Hc Hst) as (t & h' & E & C & Eu & [f Hf] & Hx & Hel).
  cbn [step astep]. unfold with_var, awith, bind_var. rewrite Ek, Ha, E. cbn [fst].
  rewrite (same_cls_class c _ _ (sw_cls _ _ _ _ X)).
  pose proof (as_storage_made _ _ _ _ _ _ E) as M. destruct (is_same_class c (vsto x) && _) eqn:Same.
  - destruct M as [-> ->]. now apply (refines_alias st m k x a).
  - assert (Hval : forall i, in_box i (a_shape a) -> f i = renamed (a_unspec a) (chosen (a_unspec a) u) (aread m a i)).
    { intros i Hi. rewrite (same_elements_renamed _ _ _ _ _ _ _ f X Hel Hf i Hi). now rewrite (sw_unspec _ _ _ _ X). }
    eapply refines_made with (f := f); auto.
    + rewrite (proj1 Hel). apply X.
    + rewrite Eu. now rewrite (sw_unspec _ _ _ _ X).
    + eapply as_view; exact E.
    + intros D. pose proof (class_sparse c t C D) as Sc.
      assert (E' : flat_fromobject c (sheap st) (SrcSto (vsto x)) (fo_unspecified u) = Ok (t, h'))
        by (destruct c; try exact E; discriminate Sc).
      destruct (keeps (a_cls a) c u) eqn:K.
      * assert (Hu : u = None) by (unfold keeps in K; destruct u; [discriminate|reflexivity]). subst u.
        assert (Hsx : is_sparse (vsto x)).
        { pose proof (sw_cls _ _ _ _ X) as Cx. destruct (a_cls a), c; try discriminate K; destruct (vsto x); try contradiction; exact I. }
        destruct (sw_stored _ _ _ _ X Hsx) as (E0 & HE0 & Hin).
        destruct (shortcut_entries c (sheap st) (vsto x) E0 HE0 Hp) as (t2 & h2 & F1 & F2 & F3).
        { destruct c; try discriminate Sc; auto. split; [exact Hc|]. intros ->.
          destruct (Hst eq_refl) as (i & v & Hi & Hgi & Hn & _).
          rewrite (repr_get _ _ _ i (repr_entries _ _ _ HE0) Hi) in Hgi. injection Hgi as <-. apply Hn. reflexivity. }
        { pose proof (sw_cls _ _ _ _ X) as Cx. destruct (a_cls a), c; try discriminate K; destruct (vsto x); try contradiction; exact I. }
        rewrite F1 in E'. injection E' as -> ->. exists E0. split; [exact F2|exact Hin].
      * destruct Hv as [g Hgx].
        destruct (fromobject_ok c (sheap st) (SrcSto (vsto x)) g u) as (t2 & h2 & E1 & E2 & E3 & E4 & E5 & E6 & E7 & E8).
        -- split; assumption.
        -- destruct c; cbn [class_rank class_ok get_shape] in *; auto; try discriminate Sc. split; [exact Hc|].
           exact (stays_specified _ _ g _ Hgx (Hst eq_refl)).
        -- auto.
        -- rewrite E1 in E'. injection E' as -> ->. destruct E7 as [_ E7].
           { cbn [no_shortcut]. destruct u; [exact I|]. cbn. pose proof (sw_cls _ _ _ _ X) as Cx.
             destruct c; try discriminate Sc; destruct (a_cls a); try discriminate K; destruct (vsto x); try contradiction; exact I. }
           eexists. split; [exact (E7 D)|]. cbn [get_shape get_unspecified]. rewrite (sw_shape _ _ _ _ X).
           intros i Hi. rewrite In_entries_of. rewrite stores_sparse by exact Sc.
           rewrite <- Hval by exact Hi.
           assert (Ef : f i = conv_value (unspecified_of (vsto x)) (new_unspec (unspecified_of (vsto x)) u) (g i)).
           { assert (Hi' : in_box i (shape_of t)) by (rewrite E3; cbn [get_shape]; now rewrite (sw_shape _ _ _ _ X)).
             pose proof (repr_get _ _ _ i E6 Hi') as G1. rewrite (repr_get _ _ _ i Hf Hi') in G1. cbn [get_unspecified] in G1. congruence. }
           rewrite <- Ef. rewrite (sw_unspec _ _ _ _ X). change (new_unspec (a_unspec a) u) with (chosen (a_unspec a) u). tauto.
    + intros D i. pose proof (class_dense c t C D) as Sc.
      replace (keeps (a_cls a) c u) with false; [now apply stores_dense|].
      unfold keeps. destruct u; [reflexivity|]. destruct (a_cls a), c; try reflexivity; discriminate Sc.
Qed.

Lemma refines_step_copy st m k u : separated st -> good st -> refines st m -> allowed st (Copy k u) ->
  refines (fst (step st (Copy k u))) (astep m (Copy k u)).
Proof.
  intros Hs Hg Hr Hk. cbn [allowed] in Hk.
  destruct (nth_error (vars st) k) as [x|] eqn:Ek; [|apply nth_error_None in Ek; lia].
  destruct (rf_arr st m k x Hr Ek) as (a & Ha & X).
  destruct (sw_values _ _ _ _ X) as (f & Hf & Hval).
  destruct (copy_ok _ _ f u Hf) as (t & h' & E & Esh & Eu & Hx & Hr' & _).
  destruct (copy_view _ _ _ _ _ _ Hf E) as [V C].
  cbn [step astep]. unfold with_var, awith, bind_var. rewrite Ek, Ha, E. cbn [fst].
  eapply refines_made; try exact Hr'; auto.
  - rewrite Esh. apply X.
  - rewrite Eu. now rewrite (sw_unspec _ _ _ _ X).
  - apply C, X.
  - rewrite V. apply X.
  - intros i Hi. cbv beta. rewrite (sw_unspec _ _ _ _ X), (Hval i Hi). reflexivity.
  - intros D. assert (Dx : is_sparse (vsto x)).
    { pose proof (sw_cls _ _ _ _ X) as Cx. pose proof (C _ Cx) as Ct.
      pose proof (class_sparse _ _ Ct D) as Sc. destruct (is_sparse_dec (vsto x)) as [?|N]; [assumption|].
      rewrite (class_dense _ _ Cx N) in Sc. discriminate. }
    destruct (sw_stored _ _ _ _ X Dx) as (E0 & HE0 & Hin).
    destruct (copy_entries _ _ E0 u HE0) as (t2 & h2 & E2 & HE2). rewrite E in E2. injection E2 as <- <-.
    eexists. split; [exact HE2|]. rewrite map_snd_fst. exact Hin.
  - intros D. apply (sw_all _ _ _ _ X). intros Dx. apply D.
    pose proof (sw_cls _ _ _ _ X) as Cx. pose proof (C _ Cx) as Ct. pose proof (class_sparse _ _ Cx Dx) as Sc.
    destruct (is_sparse_dec t) as [?|N]; [assumption|]. rewrite (class_dense _ _ Ct N) in Sc. discriminate.
Qed.

(** ** Slices *)
Lemma dm_slice_is_dm h sh rd rsh rs ro d f ix s' h' : repr h (SDM sh rd rsh rs ro d) f ->
  positive sh -> ok_index ix sh -> slice_shape ix sh <> [] ->
  getitem h (SDM sh rd rsh rs ro d) ix = Ok (ISto s', h') -> is_dm s'.
Proof.
  intros Hr Hp Hok Hne H. pose proof Hok as [Hitems _].
  assert (Hn : normal_index (norm_items (index_items ix) sh) sh) by now apply norm_items_normal.
  assert (Es : n_shape (norm_items (index_items ix) sh) sh = slice_shape ix sh) by now apply norm_items_shape.
  cbn [getitem] in H. rewrite normalize_index_ok in H by assumption. cbn [bind] in H.
  assert (Eel : is_element_index (norm_items (index_items ix) sh) sh = false).
  { apply not_true_iff_false. intros E. apply element_n_shape in E; [|exact Hn]. congruence. }
  rewrite Eel in H. apply bind_ok in H. destruct H as (n2 & _ & H). apply bind_ok in H. destruct H as (g & _ & H).
  apply bind_ok in H. destruct H as ([[[? ?] ?] ?] & _ & H). apply bind_ok in H. destruct H as ([it ?] & _ & H).
  destruct it; [discriminate|]. apply bind_ok in H. destruct H as (r & Em & H). injection H as <- <-.
  apply mk_dm_eq in Em. destruct Em as (rsh' & ->). exact I.
Qed.

Lemma slice_class s h f ix s' h' c : repr h s f -> ~ is_sparse s -> (match s with SBuffer _ => False | _ => True end) ->
  positive (shape_of s) -> ok_index ix (shape_of s) -> slice_shape ix (shape_of s) <> [] ->
  getitem h s ix = Ok (ISto s', h') -> is_class c s -> is_class c s'.
Proof.
  intros Hr Ns Nb Hp Hok Hne H. destruct s as [b|t|sh ind d|sh fi d|sh cr co d|sh ch a b d e|sh rd rsh rs ro d];
    try contradiction; try (exfalso; apply Ns; exact I).
  - cbn [getitem] in H. apply bind_ok in H. destruct H as (r & Er & H). injection H as -> <-.
    destruct Hr as (l & Hl & Ht & _). destruct (strided_slice h t l ix Hl Ht Hp Hok Hne) as (t' & E1 & _).
    rewrite Er in E1. injection E1 as ->. auto.
  - destruct Hr as (E & [] & _).
  - pose proof (dm_slice_is_dm _ _ _ _ _ _ _ _ _ _ _ Hr Hp Hok Hne H) as D. destruct s'; try contradiction. destruct c; auto.
Qed.

Lemma window_selected i j n : 0 <= i -> i < j -> j <= n ->
  selected (Sl (Some i) (Some j) None) n = map (fun k => i + k) (zseq (j - i)).
Proof.
  intros H1 H2 H3. unfold selected, sp_start, sp_stop, sp_step, sp_adjust, sp_count. cbn [sl_start sl_stop sl_step].
  change (1 <? 0) with false. cbv iota.
  replace (i <? 0) with false by lia. replace (j <? 0) with false by lia.
  replace (n <=? i) with false by lia. replace (if n <=? j then n else j) with j by (destruct (Z.leb_spec n j); lia).
  replace (i <? j) with true by lia.
  rewrite Z.div_1_r. replace (j - i - 1 + 1) with (j - i) by lia. apply map_ext. intros k. lia.
Qed.
Lemma window_shape i j n : 0 <= i -> i < j -> j <= n -> slice_shape (window i j) [n] = [j - i].
Proof.
  intros H1 H2 H3. unfold slice_shape, window. cbn [index_items items_shape]. rewrite window_selected by lia.
  rewrite zlen_map, zseq_length. f_equal. lia.
Qed.
Lemma window_source i j n k : 0 <= i -> i < j -> j <= n -> 0 <= k < j - i -> source_index (window i j) [n] [k] = [i + k].
Proof.
  intros H1 H2 H3 H4. unfold source_index, window. cbn [index_items items_source]. rewrite window_selected by lia.
  f_equal. now rewrite nth_map_zseq.
Qed.

Lemma dense_dec s h f : repr h s f -> dense_based s \/ is_sparse s \/ (is_dm s /\ sparse_based s).
Proof.
  intros Hr. destruct (based s h f Hr) as [D|D]; [auto|]. right. destruct s; cbn in *; auto.
Qed.

Lemma wselects_in u E E' sh' src sh j : ordered sh E -> ordered sh' E' -> wselects u E E' sh' src -> in_box j sh' ->
  (forall j v, In (j, v) E' -> v <> u) ->
  (In j (map fst E') <-> In (src j) (map fst E) /\ lookup E u (src j) <> u).
Proof.
  intros Ho Ho' W Hj Hv. pose proof (wselects_lookup u sh E sh' E' src j Ho Ho' W Hj) as El. destruct W as [W1 W2]. split.
  - intros Hin. apply in_map_iff in Hin. destruct Hin as ([k v] & Ek & Hin). cbn in Ek. subst k.
    destruct (W1 _ _ Hin) as [_ Hs]. split; [now apply (in_map fst) in Hs|].
    rewrite <- El. rewrite (In_lookup E' u j v) by (first [assumption|eapply ordered_NoDup; eassumption]). eapply Hv; eassumption.
  - intros [Hin Hn]. apply in_map_iff in Hin. destruct Hin as ([k v] & Ek & Hin). cbn in Ek. subst k.
    rewrite (In_lookup E u _ v) in Hn by (first [assumption|eapply ordered_NoDup; eassumption]).
    apply (in_map fst _ (j, v)). now apply W2.
Qed.
Lemma selects_in E E' sh' src j : selects E E' sh' src -> in_box j sh' ->
  (In j (map fst E') <-> In (src j) (map fst E)).
Proof.
  intros S Hj. rewrite !in_map_iff. split; intros ([k v] & Ek & Hin); cbn in Ek; subst k.
  - exists (src j, v). split; [reflexivity|]. now apply S in Hin.
  - exists (j, v). split; [reflexivity|]. now apply S.
Qed.
Lemma entries_ordered h s E : entries h s E -> ordered (shape_of s) E.
Proof. destruct s; cbn [entries shape_of]; tauto. Qed.

Lemma refines_step_slice st m k ix : separated st -> good st -> refines st m -> allowed st (Slice k ix) ->
  refines (fst (step st (Slice k ix))) (astep m (Slice k ix)).
Proof.
  intros Hs Hg Hr (x & Ek & Hsl). destruct (rf_arr st m k x Hr Ek) as (a & Ha & X).
  pose proof (nth_in _ _ _ Ek) as Hin. destruct (Hg x Hin) as [_ Ht].
  destruct (sw_values _ _ _ _ X) as (f & Hf & Hval).
  cbn [step astep]. unfold with_var, awith, bind_var. rewrite Ek, Ha. rewrite <- (sw_views _ _ _ _ X), <- (sw_shape _ _ _ _ X).
  assert (D : (exists b, vsto x = SBuffer b) \/ (match vsto x with SBuffer _ => False | _ => True end))
    by (destruct (vsto x); (left; eexists; reflexivity) || (right; exact I)).
  destruct D as [[b Eb]|D].
  - assert (Dx : dense_based (vsto x)) by (rewrite Eb; exact I).
    unfold sliceable in Hsl. rewrite Eb in *. cbn [is_view_class shape_of] in *.
    destruct Hsl as [->|(i & j & H1 & H2 & H3 & ->)].
    + change (getitem (sheap st) (SBuffer b) (XItem INone)) with (@Ok (item * heap) (ISto (SBuffer b), sheap st)). cbn [fst].
      eapply (refines_view st m k x a); eauto; rewrite ?Eb; auto.
      rewrite <- (sw_shape _ _ _ _ X), Eb. cbn [shape_of]. intros j Hj. apply box1 in Hj. destruct Hj as (z & -> & Hz).
      cbn. split; [repeat constructor; lia|reflexivity].
    + destruct (C44_windows (sheap st) b i j) as (w & E & [g V] & W1 & W2 & W3 & W4 & _); auto; [now exists f|].
      rewrite E. cbn [fst]. rewrite window_shape by lia.
      eapply (refines_view st m k x a); rewrite ?Eb; eauto; try (cbn; congruence).
      * rewrite <- (sw_shape _ _ _ _ X), Eb. cbn [shape_of]. intros l Hl. apply box1 in Hl. destruct Hl as (z & -> & Hz).
        rewrite window_source by lia. split; [repeat constructor; lia|]. cbn [spot nth]. lia.
  - assert (Hsl' : positive (shape_of (vsto x)) /\ ok_index ix (shape_of (vsto x))
       /\ slice_shape ix (shape_of (vsto x)) <> [] /\ (is_dm (vsto x) -> sliced x = true -> int_free ix)).
    { unfold sliceable in Hsl. destruct (vsto x); try exact Hsl. contradiction. }
    destruct Hsl' as (Hp & Hok & Hne & Hfree).
    assert (Hbox : forall j, in_box j (slice_shape ix (shape_of (vsto x))) ->
      in_box (source_index ix (shape_of (vsto x)) j) (a_shape a)).
    { intros j Hj. rewrite <- (sw_shape _ _ _ _ X). now apply source_index_in_box. }
    assert (Nb : forall b, vsto x <> SBuffer b) by (intros b Eb; rewrite Eb in D; exact D).
    assert (S : safe_index (vsto x) ix).
    { assert (Dm : is_dm (vsto x) \/ ~ is_dm (vsto x)) by (destruct (vsto x); cbn; auto).
      destruct Dm as [Dm|Dm].
      - specialize (Ht Dm). destruct (sliced x).
        + eapply safe_int_free; eauto.
        + eapply safe_zero; eassumption.
      - apply plain_safe. destruct (vsto x); cbn in *; auto; try tauto.
        destruct Hf as (E & [] & _). }
    destruct (getitem_slice_full _ _ _ ix Hf Hp Hok Hne S) as (t & h' & E & Esh & Eu & Hx & Hr' & Hd & Hsb & Hspot).
    rewrite E. cbn [fst].
    destruct (dense_dec _ _ f Hf) as [Dx|[Dx|[Dm Dx]]].
    + rewrite (dense_view _ Dx). destruct (Hd Dx) as (-> & Ead & Dt).
      eapply (refines_view st m k x a); eauto.
      * unfold addrs in Ead. now injection Ead.
      * intros c. eapply slice_class; eauto. now apply dense_not_sparse.
    + assert (Sx : sparse_based (vsto x)) by (destruct (vsto x); try contradiction; exact I).
      rewrite (sparse_view _ Sx).
      destruct (sw_stored _ _ _ _ X Dx) as (E0 & HE0 & Hin0).
      destruct (getitem_sparse_slice_full _ _ E0 ix HE0 Hp Hok Hne)
        as (t2 & h2 & E2 & F1 & _ & _ & _ & _ & HE2 & W & K & Kp).
      rewrite E in F1. injection F1 as <- <-.
      assert (Kc : is_class (slice_cls (a_cls a) (length (slice_shape ix (shape_of (vsto x))))) t
        /\ forgets (a_cls a) (slice_cls (a_cls a) (length (slice_shape ix (shape_of (vsto x)))))
           = match vsto x, t with SCSR _ _ _ _, SCOO _ _ _ => true | _, _ => false end).
      { pose proof (sw_cls _ _ _ _ X) as Cx. rewrite <- Esh. clear - K Cx Dx. unfold same_kind in K.
        destruct (a_cls a), (vsto x); try contradiction; destruct t; try contradiction; cbn; auto; cbn in K; rewrite K; cbn; auto. }
      destruct Kc as [Kc Kf].
      assert (St : is_sparse t) by (clear - K; destruct (vsto x), t; cbn in *; tauto).
      pose proof (entries_ordered _ _ _ HE2) as O2. rewrite Esh in O2.
      eapply refines_made; try exact Hr'; auto.
      * rewrite Eu. apply X.
      * apply sparse_view, (Hsb Sx).
      * intros j Hj. cbv beta. now apply Hval, Hbox.
      * intros _. exists E2. split; [exact HE2|]. intros j Hj. rewrite Kf.
        pose proof (Hin0 _ (Hbox j Hj)) as Hh. rewrite <- (Hval _ (Hbox j Hj)).
        pose proof (repr_entries_lookup _ _ f E0 (source_index ix (shape_of (vsto x)) j) Hf HE0) as El.
        rewrite El by now apply source_index_in_box.
        rewrite (sw_unspec _ _ _ _ X).
        assert (G : (selects E0 E2 (slice_shape ix (shape_of (vsto x))) (source_index ix (shape_of (vsto x)))
                     /\ match vsto x, t with SCSR _ _ _ _, SCOO _ _ _ => true | _, _ => false end = false)
           \/ ((forall j v, In (j, v) E2 -> v <> unspecified_of (vsto x))
                     /\ match vsto x, t with SCSR _ _ _ _, SCOO _ _ _ => true | _, _ => false end = true)).
        { clear - Kp Dx St. unfold slice_keeps in Kp. destruct (vsto x); try contradiction; destruct t; try contradiction; auto. }
        destruct G as [[G ->]|[G ->]].
        -- rewrite andb_true_r, (selects_in _ _ _ _ _ G Hj). exact Hh.
        -- rewrite (wselects_in _ _ _ _ _ _ _ (entries_ordered _ _ _ HE0) O2 W Hj G).
           rewrite Hh, andb_true_iff, negb_true_iff. rewrite (sw_unspec _ _ _ _ X).
           destruct (veqb _ _) eqn:V.
           ++ apply veqb_eq in V. split; [tauto|intros [_ ?]; discriminate].
           ++ split; [tauto|]. intros [H _]. split; [exact H|]. intros H'. rewrite H', veqb_refl in V. discriminate.
    + rewrite (sparse_view _ Dx). destruct (Hsb Dx) as [_ Dt].
      assert (Ns : ~ is_sparse (vsto x)) by (destruct (vsto x); cbn in *; tauto).
      assert (Ec : a_cls a = CDM) by (pose proof (sw_cls _ _ _ _ X) as Cx; destruct (vsto x), (a_cls a); cbn in *; tauto).
      rewrite Ec. cbn [slice_cls forgets].
      assert (Ct : is_class CDM t).
      { eapply (slice_class (vsto x)); eassumption. }
      eapply refines_made; try exact Hr'; auto.
      * rewrite Eu. apply X.
      * now apply sparse_view.
      * intros j Hj. cbv beta. now apply Hval, Hbox.
      * intros N. exfalso. now apply (sparse_not_dm t).
      * intros _ j. now rewrite (sw_all _ _ _ _ X Ns).
Qed.

(** ** Assignments *)

(** The arrays and indices whose assignments are covered: elements of Buffer
    arrays, elements and slices of Strided arrays, slices of the sparse arrays
    and of DM arrays over Strided and Buffer. *)
Definition assignable (s : storage) (ix : pyindex) : Prop :=
  match s with
  | SBuffer b => exists k, 0 <= k < bsize b /\ ix = XItem (IInt k)
  | SStrided _ => positive (shape_of s) /\ ok_index ix (shape_of s)
  | _ => slice_writes s /\ positive (shape_of s) /\ ok_index ix (shape_of s) /\ slice_shape ix (shape_of s) <> []
  end.

(** Operations the abstract machine covers: those of C49, and assignments of
    values that have an element for each selected index.  The value may share
    elements with the array if the array is Strided. *)
Definition is_strided (s : storage) : Prop := match s with SStrided _ => True | _ => False end.
Definition supported (st : state) (o : op) : Prop :=
  match o with
  | Assign k ix value => exists x, nth_error (vars st) k = Some x /\ assignable (vsto x) ix
      /\ match value with
         | OList v => forall j, in_box j (slice_shape ix (shape_of (vsto x))) -> exists w, nested_at v j = Some w
         | OVar k' => slice_shape ix (shape_of (vsto x)) <> [] /\
             exists y, nth_error (vars st) k' = Some y /\ (origin y <> origin x \/ is_strided (vsto x))
             /\ forall j, in_box j (slice_shape ix (shape_of (vsto x))) -> in_box j (shape_of (vsto y))
         end
  | _ => allowed st o
  end.
(** The value shares no elements with the array. *)
Definition separate (st : state) (k : nat) (value : operand) : Prop :=
  forall k' x y, value = OVar k' -> nth_error (vars st) k = Some x -> nth_error (vars st) k' = Some y -> origin y <> origin x.

Lemma assignable_cases s ix h f : repr h s f -> assignable s ix ->
  (dense_based s /\ writes_dense s ix)
  \/ (is_sparse s /\ positive (shape_of s) /\ ok_index ix (shape_of s) /\ slice_shape ix (shape_of s) <> []).
Proof.
  intros Hr H. destruct s as [b|t|sh ind d|sh fi d|sh cr co d|sh ch a b c d|sh rd rsh rs ro d]; cbn [assignable] in H.
  - left. destruct H as (k & Hk & ->). split; [exact I|now constructor].
  - left. destruct H as (H1 & H2). split; [exact I|now constructor].
  - right. cbn. tauto.
  - right. cbn. tauto.
  - right. cbn. tauto.
  - destruct Hr as (E & [] & _).
  - left. destruct H as (W & H1 & H2 & H3). cbn [slice_writes] in W.
    assert (Hd : dense_based d /\ elem_data d) by (destruct d; try contradiction; split; exact I).
    split; [apply Hd|]. constructor; tauto.
Qed.

Lemma assignable_box s ix j : assignable s ix -> in_box j (slice_shape ix (shape_of s)) ->
  in_box (source_index ix (shape_of s) j) (shape_of s).
Proof.
  intros H Hj.
  destruct s as [b|t|sh ind d|sh fi d|sh cr co d|sh ch a b c d|sh rd rsh rs ro d]; cbn [assignable] in H.
  2-7: apply source_index_in_box; tauto.
  destruct H as (k & Hk & ->). cbn in Hj. apply in_box_nil in Hj. subst j. cbn. rewrite Z.mod_small by lia.
  repeat constructor; lia.
Qed.

Lemma shows_frame m m' h h' x a : shows m h x a -> (forall b, In b (addrs (vsto x)) -> nth_error h' b = nth_error h b) ->
  (forall p, content m' (a_home a) p = content m (a_home a) p) -> shows m' h' x a.
Proof.
  intros [H1 H2 H3 H4 H5 (f & Hf & Hv) H7 H8 H9] Hx Hc. constructor; auto.
  - exists f. split; [eapply repr_frame; eassumption|]. intros i Hi. rewrite Hv by exact Hi. unfold aread.
    now rewrite Hc.
  - intros Hs. destruct (H7 Hs) as (E & HE & HE'). exists E. split; [|exact HE'].
    eapply entries_frame; eassumption.
Qed.

(** The contents after an assignment. *)
Lemma assigned_arrs m a ix v : arrs (assigned m a ix v) = arrs m.
Proof.
  unfold assigned. generalize (all_indices (slice_shape ix (a_shape a))) as js. intros js. revert m.
  induction js as [|j js IH]; intros m; [reflexivity|]. cbn [fold_left]. now rewrite IH.
Qed.
Lemma assigned_other m a ix v r p : r <> a_home a -> content (assigned m a ix v) r p = content m r p.
Proof.
  intros Hr. unfold assigned. generalize (all_indices (slice_shape ix (a_shape a))) as js. intros js. revert m.
  induction js as [|j js IH]; intros m; [reflexivity|]. cbn [fold_left]. rewrite IH. unfold aput. cbn [content].
  replace (Nat.eqb r (a_home a)) with false; [reflexivity|]. symmetry. now apply Nat.eqb_neq.
Qed.

(** The value does not depend on what the array holds. *)
Definition apart (m : machine) (a : arr) (v : operand) : Prop :=
  forall m' j, arrs m' = arrs m -> (forall r p, r <> a_home a -> content m' r p = content m r p) -> avalue m' v j = avalue m v j.

Lemma assigned_content m a ix v p : apart m a v ->
  (exists j, in_box j (slice_shape ix (a_shape a)) /\ a_has a (source_index ix (a_shape a) j) = true
     /\ a_at a (source_index ix (a_shape a) j) = p /\ content (assigned m a ix v) (a_home a) p = avalue m v j)
  \/ ((forall j, in_box j (slice_shape ix (a_shape a)) -> a_has a (source_index ix (a_shape a) j) = true ->
         a_at a (source_index ix (a_shape a) j) <> p) /\ content (assigned m a ix v) (a_home a) p = content m (a_home a) p).
Proof.
  intros Hv. set (src := source_index ix (a_shape a)).
  assert (G : forall js m', arrs m' = arrs m -> (forall r p, r <> a_home a -> content m' r p = content m r p) ->
    let m2 := fold_left (fun m' j => aput m' a (src j) (avalue m' v j)) js m' in
    (exists j, In j js /\ a_has a (src j) = true /\ a_at a (src j) = p /\ content m2 (a_home a) p = avalue m v j)
    \/ ((forall j, In j js -> a_has a (src j) = true -> a_at a (src j) <> p) /\ content m2 (a_home a) p = content m' (a_home a) p)).
  { induction js as [|j js IH]; intros m' H1 H2; cbn zeta; cbn [fold_left]; [right; split; [intros ? []|reflexivity]|].
    destruct (IH (aput m' a (src j) (avalue m' v j))) as [(k & K1 & K2)|[N E]].
    - exact H1.
    - intros r q Hr. unfold aput. cbn [content]. replace (Nat.eqb r (a_home a)) with false; [now apply H2|].
      symmetry. now apply Nat.eqb_neq.
    - left. exists k. split; [now right|exact K2].
    - cbn zeta in E. rewrite E. unfold aput. cbn [content]. rewrite Nat.eqb_refl. cbn [andb].
      destruct (a_has a (src j)) eqn:Ha; [destruct (same_index (a_at a (src j)) p) eqn:Es|]; cbn [andb].
      + left. exists j. apply same_index_iff in Es. split; [now left|]. split; [exact Ha|]. split; [exact Es|]. now apply Hv.
      + right. split; [|reflexivity]. intros k [<-|Hk] Hh Ek; [|now apply (N k)]. apply same_index_iff in Ek. congruence.
      + right. split; [|reflexivity]. intros k [<-|Hk] Hh Ek; [congruence|now apply (N k)]. }
  destruct (G (all_indices (slice_shape ix (a_shape a))) m eq_refl ltac:(reflexivity)) as [(j & Hj & H)|[N E]].
  - left. exists j. split; [now apply In_all_indices|exact H].
  - right. split; [|exact E]. intros j Hj. apply N. now apply In_all_indices.
Qed.

Lemma refines_assigned st m h' k x a ix v :
  separated st -> refines st m -> nth_error (vars st) k = Some x -> nth_error (arrs m) k = Some a ->
  (forall b, b <> data_addr (vsto x) -> nth_error h' b = nth_error (sheap st) b) ->
  (forall k' y b, nth_error (vars st) k' = Some y -> nth_error (arrs m) k' = Some b -> origin y = origin x ->
     shows (assigned m a ix v) h' y b) ->
  refines (St h' (vars st)) (assigned m a ix v).
Proof.
  intros Hs [L S Sh] Hk Ha Hh Hsame. constructor; rewrite ?assigned_arrs; cbn [vars sheap].
  - exact L.
  - intros k' y b Hk' Hb. destruct (Nat.eq_dec (origin y) (origin x)) as [E|E]; [now apply (Hsame k')|].
    eapply shows_frame; [now apply (S k')| |].
    + intros c Hc. apply Hh. intros ->. destruct Hc as [Hc|Hc].
      * apply E. apply (sp_data _ Hs); try (eapply nth_in; eassumption). exact Hc.
      * eapply (sp_index _ Hs x y); try (eapply nth_in; eassumption). exact Hc.
    + intros p. apply assigned_other. rewrite (sw_home _ _ _ _ (S k' y b Hk' Hb)), (sw_home _ _ _ _ (S k x a Hk Ha)). exact E.
  - exact Sh.
Qed.

Definition source_of (st : state) (v : operand) (src : source) : Prop :=
  match v with
  | OList w => src = SrcSeq w
  | OVar k => exists y, nth_error (vars st) k = Some y /\ src = SrcSto (vsto y)
  end.

Lemma refines_assign_separate st m k ix v : separated st -> good st -> refines st m -> supported st (Assign k ix v) -> separate st k v ->
  refines (fst (step st (Assign k ix v))) (astep m (Assign k ix v)) /\ snd (step st (Assign k ix v)) = Ok tt.
Proof.
  intros Hs Hg Hr (x & Ek & Hw & Hv) Hsep. destruct (rf_arr st m k x Hr Ek) as (a & Ha & X).
  pose proof (nth_in _ _ _ Ek) as Hinx.
  destruct (sw_values _ _ _ _ X) as (f & Hf & Hval).
  cbn [astep]. unfold awith. rewrite Ha.
  assert (Hap : apart m a v).
  { intros m' j H1 H2. destruct v as [w|k']; [reflexivity|]. cbn [avalue]. rewrite H1.
    destruct (nth_error (arrs m) k') as [b|] eqn:Eb; [|reflexivity]. unfold aread. rewrite H2; [reflexivity|].
    destruct Hv as (_ & y & Ey & _). rewrite (sw_home _ _ _ _ X), (sw_home _ _ _ _ (rf_shows _ _ Hr k' y b Ey Eb)).
    exact (Hsep k' x y eq_refl Ek Ey). }
  set (sh := shape_of (vsto x)) in *. set (da := data_addr (vsto x)) in *.
  (* the value *)
  assert (G : exists src, step st (Assign k ix v) = (let '(h', r) := setitem (sheap st) (vsto x) ix src in (St h' (vars st), r))
    /\ (forall h'' j, (forall b, b <> da -> nth_error h'' b = nth_error (sheap st) b) ->
          in_box j (slice_shape ix sh) -> get_value h'' src j = Ok (avalue m v j))
    /\ (slice_shape ix sh = [] -> exists w, src = SrcSeq w)).
  { cbn [step]. unfold with_var. rewrite Ek. destruct v as [w|k'].
    - exists (SrcSeq w). split; [reflexivity|]. split; [|eauto]. intros h'' j Hh Hj. destruct (Hv j Hj) as [z Hz].
      apply (value_reads (sheap st) da); [exact I| |exact Hh]. cbn [value_at avalue]. unfold list_value. now rewrite Hz.
    - destruct Hv as (Hne & y & Ey & _ & Hbox). pose proof (Hsep k' x y eq_refl Ek Ey) as Hoy. rewrite Ey. exists (SrcSto (vsto y)). split; [reflexivity|].
      split; [|intros; contradiction].
      destruct (rf_arr st m k' y Hr Ey) as (b & Hb & Y). destruct (sw_values _ _ _ _ Y) as (g & Hgy & Hvy).
      pose proof (nth_in _ _ _ Ey) as Hiny.
      intros h'' j Hh Hj. apply (value_reads (sheap st) da); [| |exact Hh].
      + split; [now exists g|]. intros [Hc|Hc].
        * apply Hoy. apply (sp_data _ Hs); assumption.
        * exact (sp_index _ Hs x y Hinx Hiny Hc).
      + cbn [value_at avalue]. rewrite Hb. split; [now apply Hbox|]. split.
        * intros ->. apply Hne. inversion Hj. reflexivity.
        * rewrite (repr_get _ _ g j Hgy (Hbox j Hj)). f_equal. apply Hvy. rewrite <- (sw_shape _ _ _ _ Y). now apply Hbox. }
  destruct G as (src & -> & Hread & Hseq).
  assert (Hsrc : forall j, in_box j (slice_shape ix sh) -> in_box (source_index ix sh j) (a_shape a)).
  { intros j Hj. rewrite <- (sw_shape _ _ _ _ X). now apply assignable_box. }
  assert (Hda : (da < length (sheap st))%nat) by (apply (sp_alive _ Hs x); [exact Hinx|now left]).
  destruct (assignable_cases _ _ _ _ Hf Hw) as [[Dx W]|(Dx & Hp & Hok & Hne)].
  - (* Buffer, Strided, DM over them *)
    destruct (repr_spot _ _ f Dx Hf) as (l & Hl & Hsp). fold da in Hl.
    destruct (dense_write _ _ f l ix src (avalue m v) W Hf Hl) as (l' & E & Ho1 & Ho2 & Ho3).
    + intros h'' Hu j Hj. apply Hread; [|exact Hj]. apply (up_other _ _ _ Hu).
    + destruct (vsto x) eqn:Ev; try exact I. destruct Hw as (z & Hz & ->). apply Hseq. reflexivity.
    + fold sh in Ho2, Ho3. rewrite E. cbn [fst snd]. split; [|reflexivity]. fold da.
      assert (Hl' : nth_error (set_nth da l' (sheap st)) da = Some l') by (apply set_nth_error_same; exact Hda).
      apply (refines_assigned st m _ k x a); auto.
      { intros b Hb. apply set_nth_error_other. exact Hb. }
      intros k' y b Ey Hb Eo.
      destruct (rf_shares _ _ Hr k' k y x b a Ey Hb Ek Ha Eo) as [(Dy & _ & Ead & Hsh)|(Sy & Exy & _)];
        [|exfalso; rewrite Exy in Sy; pose proof (sparse_view _ Sy) as V; rewrite (dense_view _ Dx) in V; discriminate].
      pose proof (rf_shows _ _ Hr k' y b Ey Hb) as Y. destruct (sw_values _ _ _ _ Y) as (g & Hgy & Hvy).
      destruct (repr_spot _ _ g Dy Hgy) as (l0 & Hl0 & Hspy). rewrite Ead in Hl0. fold da in Ead, Hl0. rewrite Hl in Hl0. injection Hl0 as <-.
      pose proof (sw_all _ _ _ _ Y (dense_not_sparse _ Dy)) as Ally.
      pose proof (sw_all _ _ _ _ X (dense_not_sparse _ Dx)) as Allx.
      constructor; try apply Y.
      * eexists. split.
        { eapply dense_relist; try eassumption; rewrite Ead; eassumption. }
        intros i Hi. cbv beta. unfold aread. rewrite Ally.
        replace (a_home b) with (a_home a) by (rewrite (sw_home _ _ _ _ X), (sw_home _ _ _ _ Y); congruence).
        pose proof (assigned_content m a ix v (a_at b i) Hap) as Q. rewrite <- (sw_shape _ _ _ _ X) in Q. fold sh in Q.
        destruct Q as [(j & Hj & _ & Ej & ->)|[Hn ->]].
        -- assert (Es : spot (vsto y) i = spot (vsto x) (source_index ix sh j)) by (apply Hsh; auto).
           rewrite Es. now apply Ho2.
        -- assert (Hi' : in_box i (shape_of (vsto y))) by now rewrite (sw_shape _ _ _ _ Y).
           destruct (Hspy i Hi') as [Hrg Hgi]. rewrite Ho3; [|lia|].
           ++ rewrite <- Hgi, Hvy by exact Hi. unfold aread. rewrite Ally.
              now replace (a_home b) with (a_home a) by (rewrite (sw_home _ _ _ _ X), (sw_home _ _ _ _ Y); congruence).
           ++ intros j Hj Es. apply (Hn j Hj (Allx _)). symmetry. apply Hsh; auto.
      * intros D. exfalso. exact (dense_not_sparse _ Dy D).
  - (* COO, FlatCOO, CSR *)
    assert (Sx : sparse_based (vsto x)) by (destruct (vsto x); try contradiction; exact I).
    destruct (sw_stored _ _ _ _ X Dx) as (E0 & HE0 & Hin0).
    destruct (sparse_write _ _ E0 ix src (avalue m v) HE0 Hp Hok Hne) as (l' & E' & E & HE' & Efst & Hl1 & Hl2 & Hl3).
    + intros l'' j Hj _. apply Hread; [|exact Hj]. intros b Hb. apply set_nth_error_other. exact Hb.
    + fold sh da in HE', E, Hl1, Hl2. rewrite E. cbn [fst snd]. split; [|reflexivity].
      apply (refines_assigned st m _ k x a); auto.
      { intros b Hb. apply set_nth_error_other. exact Hb. }
      intros k' y b Ey Hb Eo.
      destruct (rf_shares _ _ Hr k' k y x b a Ey Hb Ek Ha Eo) as [(Dy & Dx' & _)|(Sy & Exy & ->)].
      { exfalso. pose proof (sparse_view _ Sx) as V. rewrite (dense_view _ Dx') in V. discriminate. }
      assert (Hat : forall i, a_at a i = i).
      { apply (sw_at _ _ _ _ X). rewrite <- (sw_views _ _ _ _ X). now apply sparse_view. }
      pose proof (rf_shows _ _ Hr k' y a Ey Hb) as Y.
      constructor; try apply Y; rewrite Exy.
      * eexists. split; [exact (repr_entries _ _ _ HE')|]. intros i Hi. unfold aread.
        pose proof (Hin0 i Hi) as Hh. destruct (a_has a i) eqn:Hai.
        -- rewrite Hat. pose proof (assigned_content m a ix v i Hap) as Q. rewrite <- (sw_shape _ _ _ _ X) in Q. fold sh in Q.
           destruct Q as [(j & Hj & Hja & Ej & ->)|[Hn ->]].
           ++ rewrite Hat in Ej. rewrite <- Ej. apply Hl1; [exact Hj|]. rewrite Ej. now apply Hh.
           ++ rewrite Hl2.
              ** assert (Hi' : in_box i (shape_of (vsto x))) by now rewrite (sw_shape _ _ _ _ X).
                 rewrite <- (repr_entries_lookup _ _ f E0 i Hf HE0 Hi').
                 rewrite (Hval i Hi). unfold aread. now rewrite Hai, Hat.
              ** intros (j & Hj & Ej). apply (Hn j Hj); rewrite ?Hat; congruence.
        -- rewrite <- (sw_unspec _ _ _ _ X). apply lookup_absent. rewrite Efst. intros H. apply Hh in H. discriminate.
      * intros _. exists E'. split; [exact HE'|]. rewrite Efst. exact Hin0.
Qed.

(** A value that shares elements with a Strided array: element by element. *)
Lemma refines_ext st m m' : arrs m = arrs m' -> (forall r p, content m r p = content m' r p) -> refines st m -> refines st m'.
Proof.
  intros E H [L S Sh]. constructor; rewrite <- E; [exact L| |exact Sh].
  intros k x a Hk Ha. destruct (S k x a Hk Ha) as [H1 H2 H3 H4 H5 (f & Hf & Hv) H7 H8 H9]. constructor; auto.
  exists f. split; [exact Hf|]. intros i Hi. rewrite (Hv i Hi). unfold aread. now rewrite H.
Qed.

Lemma refines_step_assign st m k ix v : separated st -> good st -> refines st m -> supported st (Assign k ix v) ->
  refines (fst (step st (Assign k ix v))) (astep m (Assign k ix v)) /\ snd (step st (Assign k ix v)) = Ok tt.
Proof.
  intros Hs Hg Hr Hsup. pose proof Hsup as (x & Ek & Hw & Hv).
  assert (D : separate st k v \/ exists k' y, v = OVar k' /\ nth_error (vars st) k' = Some y /\ is_strided (vsto x)).
  { destruct v as [w|k']; [left; intros ? ? ? E; discriminate|]. destruct Hv as (_ & y & Ey & [Ho|Hst] & _).
    - left. intros k2 x2 y2 E E1 E2. injection E as <-. rewrite Ek in E1. injection E1 as <-. rewrite Ey in E2. now injection E2 as <-.
    - right. eauto. }
  destruct D as [D|(k' & y & -> & Ey & Hst)]; [now apply refines_assign_separate|].
  destruct Hv as (Hne & y0 & Ey0 & _ & Hbox). rewrite Ey in Ey0. injection Ey0 as <-.
  destruct (rf_arr st m k x Hr Ek) as (a & Ha & X). destruct (rf_arr st m k' y Hr Ey) as (b & Hb & Y).
  destruct x as [s ox sx] eqn:Ex. cbn [vsto] in *. destruct s as [|t| | | | |]; try contradiction.
  cbn [assignable shape_of] in *. destruct Hw as [Hp Hok].
  assert (Hlen : length (sstrides t) = length (sshape t)).
  { destruct (sw_values _ _ _ _ X) as (f & (l & _ & Hok' & _) & _). apply (so_strides _ _ Hok'). }
  cbn [step astep]. unfold with_var, awith. rewrite Ek, Ey, Ha. cbn [vsto].
  rewrite (C62_assignment_is_a_loop _ t ix _ (cart (slice_shape ix (sshape t)))); auto;
    [|intros j; apply In_cart|apply cart_sorted].
  unfold assigned. rewrite <- (sw_shape _ _ _ _ X). cbn [vsto shape_of].
  change (all_indices (slice_shape ix (sshape t))) with (cart (slice_shape ix (sshape t))).
  assert (G : forall js h m, Forall (fun j => in_box j (slice_shape ix (sshape t))) js ->
    separated (St h (vars st)) -> good (St h (vars st)) -> refines (St h (vars st)) m -> nth_error (arrs m) k = Some a -> nth_error (arrs m) k' = Some b ->
    let '(h', r) := assign_each h (SStrided t) (SrcSto (vsto y)) (source_index ix (sshape t)) js in
    refines (St h' (vars st)) (fold_left (fun m' j => aput m' a (source_index ix (sshape t) j) (avalue m' (OVar k') j)) js m) /\ r = Ok tt).
  { induction js as [|j js IH]; intros h0 m0 Hjs Hs0 Hg0 Hr0 Ha0 Hb0; [cbn; auto|]. inversion Hjs as [|? ? Hj Hjs']; subst.
    cbn [assign_each fold_left]. pose proof (rf_shows _ _ Hr0 k' y b Ey Hb0) as Y0.
    destruct (sw_values _ _ _ _ Y0) as (g & Hg1 & Hg2). cbn [sheap] in *.
    rewrite (get_value_repr _ _ g); [|exact Hg1| |now apply Hbox].
    2:{ intros E0. pose proof (Hbox j Hj) as B. rewrite E0 in B. apply in_box_nil in B. subst j. apply Hne. now inversion Hj. }
    set (i := source_index ix (sshape t) j). assert (Bi : in_box i (sshape t)) by now apply source_index_in_box.
    assert (Sup : supported (St h0 (vars st)) (Assign k (int_tuple i) (OList (g j)))).
    { exists (Var (SStrided t) ox sx). split; [exact Ek|]. cbn [vsto assignable shape_of].
      split; [split; [exact Hp|now apply int_tuple_ok, in_box_len]|].
      intros j' Hj'. rewrite int_tuple_shape in Hj' by now apply in_box_len. apply in_box_nil in Hj'. subst j'. exists (g j). reflexivity. }
    destruct (refines_assign_separate _ m0 k (int_tuple i) (OList (g j)) Hs0 Hg0 Hr0 Sup ltac:(intros ? ? ? E; discriminate)) as [R1 R2].
    pose proof (step_separated _ (Assign k (int_tuple i) (OList (g j))) Hs0) as [_ S1].
    pose proof (step_good _ (Assign k (int_tuple i) (OList (g j))) Hs0 Hg0 I) as [G1 _].
    cbn [step] in R1, R2, S1, G1. unfold with_var in R1, R2, S1, G1. cbn [vars sheap] in R1, R2, S1, G1. rewrite Ek in R1, R2, S1, G1. cbn [vsto] in R1, R2, S1, G1.
    destruct (setitem h0 (SStrided t) (int_tuple i) (SrcSeq (g j))) as [h1 r1]. cbn [fst snd] in *. subst r1.
    assert (Ev : avalue m0 (OVar k') j = g j).
    { cbn [avalue]. rewrite Hb0. symmetry. apply Hg2. rewrite <- (sw_shape _ _ _ _ Y0). now apply Hbox. }
    apply IH; auto.
    eapply refines_ext; [| |exact R1]; cbn [astep]; unfold awith; rewrite Ha0; unfold assigned;
      rewrite <- (sw_shape _ _ _ _ X); cbn [vsto shape_of]; rewrite int_tuple_shape by (now apply in_box_len); cbn [all_indices fold_left];
      rewrite int_tuple_source by exact Bi; [reflexivity|]. intros r p. rewrite Ev. reflexivity. }
  specialize (G (cart (slice_shape ix (sshape t))) (sheap st) m). destruct st as [h0 vs]. cbn [sheap vars] in *.
  destruct (assign_each _ _ _ _ _) as [h' r]. apply G; auto. apply Forall_forall. intros j Hj. now apply In_cart.
Qed.

(** ** C58 *)

(** A covered program: every operation is supported where it is run. *)
Definition covered (ops : list op) : Prop :=
  forall before o after, ops = before ++ o :: after -> supported (run before) o.

Lemma supported_allowed st o : supported st o -> allowed st o.
Proof. destruct o; cbn [supported]; auto. intros _. exact I. Qed.
Lemma covered_legal ops : covered ops -> legal ops.
Proof. intros H b o a E. now apply supported_allowed, (H b o a). Qed.
Lemma covered_snoc ops o : covered (ops ++ [o]) -> covered ops /\ supported (run ops) o.
Proof.
  intros H. split; [|now apply (H ops o [])]. intros b x a E. apply (H b x (a ++ [o])). rewrite E, <- app_assoc. reflexivity.
Qed.
Lemma arun_snoc ops o : arun (ops ++ [o]) = astep (arun ops) o.
Proof. unfold arun. now rewrite fold_left_app. Qed.

Lemma refines_step st m o : separated st -> good st -> refines st m -> supported st o ->
  refines (fst (step st o)) (astep m o) /\ snd (step st o) = Ok tt.
Proof.
  intros Hs Hg Hr Ho. destruct o as [c v u|v u d p c|k c u|k d p c u|k ix|k u|k ix value].
  7: now apply refines_step_assign.
  all: split; [|now apply (step_good st _ Hs Hg Ho)].
  - now apply refines_step_new.
  - now apply refines_step_newdm.
  - now apply refines_step_as.
  - now apply refines_step_asdm.
  - now apply refines_step_slice.
  - now apply refines_step_copy.
Qed.

Lemma run_refines ops : covered ops -> refines (run ops) (arun ops).
Proof.
  induction ops as [|o ops IH] using rev_ind; intros H.
  - constructor; cbn; [reflexivity| |]; intros k; intros; destruct k; discriminate.
  - apply covered_snoc in H. destruct H as [H1 H2]. rewrite run_snoc, arun_snoc.
    apply refines_step; auto; [apply run_separated|now apply run_good, covered_legal].
Qed.

(** After any covered program each variable is the array the abstract machine
    says: class, shape, unspecified value, every element and, for the sparse
    classes, the indices with a stored value. *)
Theorem C58_programs : forall ops, covered ops ->
  length (vars (run ops)) = length (arrs (arun ops))
  /\ forall k x a, nth_error (vars (run ops)) k = Some x -> nth_error (arrs (arun ops)) k = Some a ->
       is_class (a_cls a) (vsto x) /\ shape_of (vsto x) = a_shape a /\ unspecified_of (vsto x) = a_unspec a
       /\ (forall i, in_box i (a_shape a) -> get_elem (sheap (run ops)) (vsto x) i = Ok (aread (arun ops) a i))
       /\ (sparse_class (a_cls a) = true -> positive (a_shape a) ->
             forall i, in_box i (a_shape a) -> (stored (sheap (run ops)) (vsto x) i <-> a_has a i = true)).
Proof.
  intros ops H. pose proof (run_refines ops H) as R. split; [apply R|]. intros k x a Hk Ha.
  pose proof (rf_shows _ _ R k x a Hk Ha) as X. split; [apply X|]. split; [apply X|]. split; [apply X|]. split.
  - intros i Hi. destruct (sw_values _ _ _ _ X) as (f & Hf & Hv). rewrite <- (Hv i Hi). apply repr_get; [exact Hf|].
    now rewrite (sw_shape _ _ _ _ X).
  - intros Hc Hp i Hi.
    assert (Sx : is_sparse (vsto x)) by (pose proof (sw_cls _ _ _ _ X) as C; destruct (a_cls a), (vsto x); try discriminate; contradiction || exact I).
    destruct (sw_stored _ _ _ _ X Sx) as (E & HE & Hin). rewrite <- (Hin i Hi). apply stored_sparse; [exact HE|].
    now rewrite (sw_shape _ _ _ _ X).
Qed.
Print Assumptions C58_programs.

(** No operation of a covered program raises. *)
Theorem C58_no_exceptions : forall ops o, covered ops -> supported (run ops) o -> snd (step (run ops) o) = Ok tt.
Proof.
  intros ops o H Ho. apply (refines_step (run ops) (arun ops) o); auto; [apply run_separated| |now apply run_refines].
  now apply run_good, covered_legal.
Qed.
Print Assumptions C58_no_exceptions.

(** ** C59: programs that differ only in how their DM arrays are mapped. *)
Inductive remapped : op -> op -> Prop :=
| rm_same o : remapped o o
| rm_new v u d p c d' p' c' : view_class c = view_class c' -> remapped (NewDM v u d p c) (NewDM v u d' p' c')
| rm_as k u d p c d' p' c' : view_class c = view_class c' -> remapped (AsDM k d p c u) (AsDM k d' p' c' u).

Lemma arun_remapped ops ops' : Forall2 remapped ops ops' -> arun ops = arun ops'.
Proof.
  unfold arun. generalize (Machine (fun _ _ => VNone) []) as m. intros m H. revert m.
  induction H as [|o o' l l' Ho H IH]; intros m; [reflexivity|]. cbn [fold_left].
  replace (astep m o) with (astep m o'); [apply IH|].
  destruct Ho as [o|v u d p c d' p' c' E|k u d p c d' p' c' E]; cbn [astep]; rewrite ?E; reflexivity.
Qed.

Theorem C59_remapped : forall ops ops', covered ops -> covered ops' -> Forall2 remapped ops ops' ->
  length (vars (run ops)) = length (vars (run ops'))
  /\ forall k x y, nth_error (vars (run ops)) k = Some x -> nth_error (vars (run ops')) k = Some y ->
       shape_of (vsto x) = shape_of (vsto y) /\ unspecified_of (vsto x) = unspecified_of (vsto y)
       /\ forall i, in_box i (shape_of (vsto x)) ->
            get_elem (sheap (run ops)) (vsto x) i = get_elem (sheap (run ops')) (vsto y) i.
Proof.
  intros ops ops' H H' R. destruct (C58_programs ops H) as [L P], (C58_programs ops' H') as [L' P'].
  rewrite <- (arun_remapped _ _ R) in *. split; [congruence|]. intros k x y Hx Hy.
  destruct (nth_error (arrs (arun ops)) k) as [a|] eqn:Ha.
  - destruct (P k x a Hx Ha) as (_ & P1 & P2 & P3 & _), (P' k y a Hy Ha) as (_ & Q1 & Q2 & Q3 & _).
    split; [congruence|]. split; [congruence|]. intros i Hi. rewrite P1 in Hi. rewrite P3, Q3 by exact Hi. reflexivity.
  - exfalso. apply nth_error_None in Ha. rewrite <- L in Ha.
    assert (k < length (vars (run ops)))%nat by (apply nth_error_Some; congruence). lia.
Qed.
Print Assumptions C59_remapped.

Lemma covered_nil : covered [].
Proof. intros b o a E. destruct b; discriminate. Qed.
Lemma covered_add ops o : covered ops -> supported (run ops) o -> covered (ops ++ [o]).
Proof.
  intros H Ha b x a E. destruct a as [|y a].
  - apply app_inj_tail in E. destruct E as [-> ->]. exact Ha.
  - destruct (exists_last (l := y :: a)) as (a' & z & Ea); [discriminate|]. rewrite Ea in E.
    change (x :: a' ++ [z]) with ((x :: a') ++ [z]) in E. rewrite app_assoc in E. apply app_inj_tail in E.
    destruct E as [-> _]. now apply (H b x a').
Qed.

Ltac covered_step :=
  match goal with |- covered ?l =>
    let l' := eval compute in (firstn (length l - 1) l) in
    let x := eval compute in (skipn (length l - 1) l) in
    match x with [?o] => change l with (l' ++ [o]); apply covered_add end end.
Ltac index_ok := split; [repeat constructor; cbn; lia || discriminate|right; cbn; lia].

(** x0 = Strided([[1, 2], [3, 4]]); x1 = x0[:, ::-1]; x2 = x0.as_CSR(unspecified=2);
    x1[0] = [9, 8]; x3 = x0[1]; x2[0] = x3; x4 = x2[0]; x5 = x0.as_DM(); x6 = x5[1:];
    x6[0] = [5, 6].
    The assignment through the view x1 changes x0; that to x2 leaves the
    unspecified element at [0, 1] as it is; that to x6 changes x5 only. *)
Definition program (d p : option (list Z)) : list op :=
  [New CStrided nested_2x2 None;
   Slice 0 (XTuple [ISlice (Sl None None None); ISlice (Sl None None (Some (-1)))]);
   As 0 CCSR (Some (VInt 2));
   Assign 1 (XItem (IInt 0)) (OList (VSeq [VInt 9; VInt 8]));
   Slice 0 (XItem (IInt 1));
   Assign 2 (XItem (IInt 0)) (OVar 3);
   Slice 2 (XItem (IInt 0));
   AsDM 0 d p CStrided None;
   Slice 5 (XItem (ISlice (Sl (Some 1) None None)));
   Assign 6 (XItem (IInt 0)) (OList (VSeq [VInt 5; VInt 6]))].

Definition reads_of (m : machine) : list (list pyval) := map (fun a => map (aread m a) (all_indices (a_shape a))) (arrs m).

Ltac two_elements H := let z := fresh in apply box1 in H; destruct H as (z & -> & H);
  assert (z = 0 \/ z = 1) as [-> | ->] by lia; eexists; reflexivity.

Lemma program_covered_part d p : covered (firstn 7 (program d p)).
Proof.
  assert (P : positive [2; 2]) by (repeat constructor; lia).
  unfold program. cbn [firstn]. do 7 only 1: covered_step.
  all: cbn [supported allowed].
  - apply covered_nil.
  - exists [2; 2]. split; [repeat (split || constructor); cbn; discriminate|]. split; [exact I|discriminate].
  - eexists. split; [vm_compute; reflexivity|]. split; [exact P|]. split; [index_ok|]. split; [discriminate|intros []].
  - eexists. split; [vm_compute; reflexivity|]. split; [exact P|]. split; [discriminate|]. split; [reflexivity|].
    intros _. exists [0; 0], (VInt 1). split; [repeat constructor; lia|]. split; [vm_compute; reflexivity|]. split; discriminate.
  - eexists. split; [vm_compute; reflexivity|]. split; [split; [exact P|index_ok]|].
    intros j H. two_elements H.
  - eexists. split; [vm_compute; reflexivity|]. split; [exact P|]. split; [index_ok|]. split; [discriminate|intros []].
  - eexists. split; [vm_compute; reflexivity|]. split; [split; [exact I|]; split; [exact P|]; split; [index_ok|discriminate]|].
    split; [discriminate|]. eexists. split; [vm_compute; reflexivity|]. split; [left; discriminate|]. intros j H. exact H.
  - eexists. split; [vm_compute; reflexivity|]. split; [exact P|]. split; [index_ok|]. split; [discriminate|intros []].
Qed.

Lemma program_covered d p : (d, p) = (None, None) \/ (d, p) = (Some [1; 0], Some [1]) -> covered (program d p).
Proof.
  assert (P : positive [2; 2]) by (repeat constructor; lia).
  assert (P1 : positive [1; 2]) by (repeat constructor; lia).
  intros [E|E]; injection E as -> ->.
  - pose proof (program_covered_part None None) as H. unfold program in *. cbn [firstn] in H.
    do 3 only 1: covered_step. all: cbn [supported allowed].
    + exact H.
    + eexists. split; [vm_compute; reflexivity|]. split; [exact P|]. split; [constructor; try discriminate; reflexivity|].
      split; [exact I|discriminate].
    + eexists. split; [vm_compute; reflexivity|]. split; [exact P|]. split; [index_ok|]. split; [discriminate|]. discriminate.
    + eexists. split; [vm_compute; reflexivity|]. split; [split; [exact I|]; split; [exact P1|]; split; [index_ok|discriminate]|].
      intros j J. two_elements J.
  - pose proof (program_covered_part (Some [1; 0]) (Some [1])) as H. unfold program in *. cbn [firstn] in H.
    do 3 only 1: covered_step. all: cbn [supported allowed].
    + exact H.
    + eexists. split; [vm_compute; reflexivity|]. split; [exact P|]. split.
      { constructor; [reflexivity| |].
        - intros q E. injection E as <-. apply perm_swap.
        - intros q E. injection E as <-. split; repeat constructor; lia. }
      split; [exact I|discriminate].
    + eexists. split; [vm_compute; reflexivity|]. split; [exact P|]. split; [index_ok|]. split; [discriminate|]. discriminate.
    + eexists. split; [vm_compute; reflexivity|]. split; [split; [exact I|]; split; [exact P1|]; split; [index_ok|discriminate]|].
      intros j J. two_elements J.
Qed.

Example C58_case : covered (program None None)
  /\ reads_of (arun (program None None))
     = [[VInt 8; VInt 9; VInt 3; VInt 4]; [VInt 9; VInt 8; VInt 4; VInt 3]; [VInt 3; VInt 2; VInt 3; VInt 4];
        [VInt 3; VInt 4]; [VInt 3; VInt 2]; [VInt 8; VInt 9; VInt 5; VInt 6]; [VInt 5; VInt 6]].
Proof. split; [apply program_covered; now left|vm_compute; reflexivity]. Qed.

(** x0 = Strided([1, 2, 3, 4]); x1 = x0[:-1]; x0[1:] = x1.  The value shares its
    elements with the array: each is overwritten before it is read. *)
Definition shifted : list op :=
  [New CStrided (VSeq [VInt 1; VInt 2; VInt 3; VInt 4]) None;
   Slice 0 (XItem (ISlice (Sl None (Some (-1)) None)));
   Assign 0 (XItem (ISlice (Sl (Some 1) None None))) (OVar 1)].
Example C58_overlap_case : covered shifted
  /\ reads_of (arun shifted) = [[VInt 1; VInt 1; VInt 1; VInt 1]; [VInt 1; VInt 1; VInt 1]].
Proof.
  assert (P : positive [4]) by (repeat constructor; lia).
  split; [|vm_compute; reflexivity]. unfold shifted. do 3 only 1: covered_step. all: cbn [supported allowed].
  - apply covered_nil.
  - exists [4]. split; [repeat (split || constructor); cbn; discriminate|]. split; [exact I|discriminate].
  - eexists. split; [vm_compute; reflexivity|]. split; [exact P|]. split; [index_ok|]. split; [discriminate|intros []].
  - eexists. split; [vm_compute; reflexivity|]. split; [split; [exact P|index_ok]|].
    split; [discriminate|]. eexists. split; [vm_compute; reflexivity|]. split; [right; exact I|]. intros j H. exact H.
Qed.

Example C59_case : covered (program None None) /\ covered (program (Some [1; 0]) (Some [1]))
  /\ Forall2 remapped (program None None) (program (Some [1; 0]) (Some [1]))
  /\ map vsto (vars (run (program None None))) <> map vsto (vars (run (program (Some [1; 0]) (Some [1])))).
Proof.
  split; [apply program_covered; now left|]. split; [apply program_covered; now right|]. split.
  - repeat constructor.
  - vm_compute. discriminate.
Qed.

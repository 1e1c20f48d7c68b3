(** C117: programs whose assignments may take values from the array they assign to. *)
From Coq Require Import Sorting.Sorted Permutation ZifyBool.
From Verif Require Import Py SliceTools Basics Storage Spec SliceFacts IndexFacts
  CompressFacts ReduceFacts SolverFacts SolveFacts Repr ReprFacts ViewFacts BuildFacts SparseFacts
  ConvFacts FromFacts DMFacts ReadFacts MapFacts ChainFacts WriteFacts EffectFacts EqFacts PureFacts AliasFacts
  PropRead PropWrite PropFail PropIndex PropReach PropMore RefineFacts PropCopy Machine PropRefine Flood PropFlood Turns.

(** ** One write *)

Lemma assigned_one m a i w : in_box i (a_shape a) -> assigned m a (int_tuple i) (OList w) = aput m a i w.
Proof.
  intros Hi. unfold assigned. rewrite int_tuple_shape by (now apply in_box_len). cbn [all_indices fold_left avalue].
  rewrite (int_tuple_source i _ Hi). reflexivity.
Qed.

Lemma list_apart m a w : apart m a (OList w).
Proof. intros m' j _ _. reflexivity. Qed.

Lemma aput_other m a i w r p : r <> a_home a -> content (aput m a i w) r p = content m r p.
Proof. intros H. unfold aput. cbn [content]. apply Nat.eqb_neq in H. now rewrite H. Qed.
Lemma aput_content m a i w p : content (aput m a i w) (a_home a) p =
  if a_has a i && same_index (a_at a i) p then w else content m (a_home a) p.
Proof. unfold aput. cbn [content]. now rewrite Nat.eqb_refl. Qed.

(** An element of a list is overwritten: every view of it shows that. *)
Lemma poke_dense st m k x a i w l : separated st -> refines st m ->
  nth_error (vars st) k = Some x -> nth_error (arrs m) k = Some a ->
  dense_based (vsto x) -> in_box i (a_shape a) -> nth_error (sheap st) (data_addr (vsto x)) = Some l ->
  refines (St (set_nth (data_addr (vsto x)) (set_nth (Z.to_nat (spot (vsto x) i)) w l) (sheap st)) (vars st)) (aput m a i w).
Proof.
  intros Hs Hr Ek Ha Dx Bi Hl. pose proof (rf_shows _ _ Hr k x a Ek Ha) as X. pose proof (nth_in _ _ _ Ek) as Hinx.
  set (da := data_addr (vsto x)) in *. set (l' := set_nth _ w l).
  destruct (sw_values _ _ _ _ X) as (f & Hf & Hval).
  destruct (repr_spot _ _ f Dx Hf) as (l0 & Hl0 & Hsp). fold da in Hl0. rewrite Hl in Hl0. injection Hl0 as <-.
  pose proof (sw_shape _ _ _ _ X) as Sx.
  assert (Hrg : 0 <= spot (vsto x) i < zlen l) by (apply Hsp; now rewrite Sx).
  assert (Hda : (da < length (sheap st))%nat) by (apply (sp_alive _ Hs x); [exact Hinx|now left]).
  assert (Hl' : nth_error (set_nth da l' (sheap st)) da = Some l') by (apply set_nth_error_same; exact Hda).
  rewrite <- (assigned_one m a i w Bi).
  apply (refines_assigned st m _ k x a); auto.
  { intros b Hb. apply set_nth_error_other. exact Hb. }
  intros k' y b Ey Hb Eo. rewrite (assigned_one m a i w Bi).
  destruct (rf_shares _ _ Hr k' k y x b a Ey Hb Ek Ha Eo) as [(Dy & _ & Ead & Hsh)|(Sy & Exy & _)];
    [|exfalso; rewrite Exy in Sy; pose proof (sparse_view _ Sy) as V; rewrite (dense_view _ Dx) in V; discriminate].
  pose proof (rf_shows _ _ Hr k' y b Ey Hb) as Y. destruct (sw_values _ _ _ _ Y) as (g & Hgy & Hvy).
  destruct (repr_spot _ _ g Dy Hgy) as (l0 & Hl0 & Hspy). rewrite Ead in Hl0. fold da in Ead, Hl0. rewrite Hl in Hl0. injection Hl0 as <-.
  pose proof (sw_all _ _ _ _ Y (dense_not_sparse _ Dy)) as Ally.
  pose proof (sw_all _ _ _ _ X (dense_not_sparse _ Dx)) as Allx.
  constructor; try apply Y.
  - eexists. split.
    { eapply dense_relist; try eassumption; [rewrite Ead; eassumption..|apply set_nth_length]. }
    intros j Hj. cbv beta. unfold aread. rewrite Ally.
    replace (a_home b) with (a_home a) by (rewrite (sw_home _ _ _ _ X), (sw_home _ _ _ _ Y); congruence).
    assert (Hj' : in_box j (shape_of (vsto y))) by now rewrite (sw_shape _ _ _ _ Y).
    destruct (Hspy j Hj') as [Hrj Hgj].
    rewrite aput_content, Allx. cbn [andb]. unfold l'. rewrite set_nth_nth by (unfold zlen in Hrg; lia).
    destruct (same_index (a_at a i) (a_at b j)) eqn:E.
    + apply same_index_iff in E. replace (spot (vsto y) j) with (spot (vsto x) i) by (symmetry; apply Hsh; auto).
      now rewrite Nat.eqb_refl.
    + replace (Nat.eqb _ _) with false.
      * rewrite <- Hgj, Hvy by exact Hj. unfold aread. rewrite Ally.
        now replace (a_home b) with (a_home a) by (rewrite (sw_home _ _ _ _ X), (sw_home _ _ _ _ Y); congruence).
      * symmetry. apply Nat.eqb_neq. intros Q. assert (Q' : spot (vsto y) j = spot (vsto x) i) by lia.
        apply Hsh in Q'; auto. symmetry in Q'. apply same_index_iff in Q'. congruence.
  - intros D. exfalso. exact (dense_not_sparse _ Dy D).
Qed.

(** The same for the data of a sparse array; [p] is the place of the stored
    index [i]. *)
Lemma poke_sparse st m k x a E d p i w l : separated st -> refines st m ->
  nth_error (vars st) k = Some x -> nth_error (arrs m) k = Some a ->
  entries (sheap st) (vsto x) E -> data_buffer (vsto x) = Ok d -> nth_error (sheap st) (baddr d) = Some l ->
  0 <= p < zlen E -> i = fst (nth (Z.to_nat p) E ([], VNone)) ->
  refines (St (set_nth (baddr d) (set_nth (Z.to_nat (boff d + p)) w l) (sheap st)) (vars st)) (aput m a i w).
Proof.
  intros Hs Hr Ek Ha HE Ed Hl Hp Ei. pose proof (rf_shows _ _ Hr k x a Ek Ha) as X. pose proof (nth_in _ _ _ Ek) as Hinx.
  assert (Dx : is_sparse (vsto x)) by exact (entries_sparse _ _ _ HE).
  assert (Sx : sparse_based (vsto x)) by (destruct (vsto x); try contradiction; exact I).
  assert (Ea : baddr d = data_addr (vsto x)).
  { destruct (entries_data _ _ _ HE) as (d0 & Ed0 & _ & _ & Q). congruence. }
  rewrite Ea in *. set (da := data_addr (vsto x)) in *. set (l' := set_nth _ w l).
  pose proof (sw_shape _ _ _ _ X) as Sh. pose proof (entries_ordered _ _ _ HE) as Ho.
  assert (Hrg : forall q, 0 <= q < zlen E -> 0 <= boff d + q < zlen l).
  { apply (entries_range _ _ E d l HE Ed). now rewrite Ea. }
  assert (Hini : In i (map fst E)).
  { rewrite Ei. apply in_map, nth_In. unfold zlen in Hp. lia. }
  assert (Bi : in_box i (a_shape a)).
  { rewrite <- Sh. destruct Ho as [Hb _]. rewrite Forall_forall in Hb. apply in_map_iff in Hini. destruct Hini as (e & <- & He). now apply Hb. }
  destruct (entries_relist _ _ E l l' HE Hl (set_nth_length _ _ _)) as (d1 & Ed1 & HE').
  rewrite Ed in Ed1. injection Ed1 as <-. fold da in HE'.
  destruct (sw_stored _ _ _ _ X Dx) as (E0 & HE0 & Hin0).
  assert (Hin : forall j, in_box j (a_shape a) -> (In j (map fst E) <-> a_has a j = true)).
  { intros j Hj. rewrite <- (Hin0 j Hj). pose proof (sp_alive _ Hs). rewrite <- Sh in Hj.
    assert (P : positive (shape_of (vsto x))) by exact (in_box_positive_shape _ _ Hj).
    now rewrite <- (stored_sparse _ _ E j HE P), <- (stored_sparse _ _ E0 j HE0 P). }
  rewrite <- (assigned_one m a i w Bi).
  apply (refines_assigned st m _ k x a); auto.
  { intros b Hb. apply set_nth_error_other. exact Hb. }
  intros k' y b Ey Hb Eo. rewrite (assigned_one m a i w Bi).
  destruct (rf_shares _ _ Hr k' k y x b a Ey Hb Ek Ha Eo) as [(Dy & Dx' & _)|(Sy & Exy & ->)].
  { exfalso. pose proof (sparse_view _ Sx) as V. rewrite (dense_view _ Dx') in V. discriminate. }
  assert (Hat : forall j, a_at a j = j).
  { apply (sw_at _ _ _ _ X). rewrite <- (sw_views _ _ _ _ X). now apply sparse_view. }
  pose proof (rf_shows _ _ Hr k' y a Ey Hb) as Y. destruct (sw_values _ _ _ _ X) as (f & Hf & Hval).
  constructor; try apply Y; rewrite Exy.
  - eexists. split; [exact (repr_entries _ _ _ HE')|]. intros j Hj. unfold aread.
    pose proof (Hin j Hj) as Hh. destruct (a_has a j) eqn:Haj.
    + rewrite Hat, aput_content, Hat, (proj1 (Hin i Bi) Hini). cbn [andb].
      destruct (stored_pos E j (proj2 Hh eq_refl)) as (q & Hq & Ej).
      destruct (same_index i j) eqn:Es.
      * apply same_index_iff in Es. rewrite <- Es, (revalue_lookup _ (boff d) l' E _ _ p Ho Hp Ei).
        unfold l'. rewrite set_nth_nth by (specialize (Hrg p Hp); unfold zlen in Hrg; lia). now rewrite Nat.eqb_refl.
      * rewrite Ej. rewrite (sparse_rewrite _ _ E d l l' _ HE Ed ltac:(rewrite Ea; exact Hl) q Hq).
        -- rewrite <- Ej. rewrite <- (repr_entries_lookup _ _ f E j Hf HE) by (now rewrite Sh).
           rewrite (Hval j Hj). unfold aread. now rewrite Haj, Hat.
        -- unfold l'. pose proof (Hrg p Hp). pose proof (Hrg q Hq). rewrite set_nth_nth by (unfold zlen in *; lia).
           replace (Nat.eqb _ _) with false; [reflexivity|]. symmetry. apply Nat.eqb_neq. intros Q.
           assert (q = p) by lia. subst q. assert (i = j) by congruence. apply same_index_iff in H1. congruence.
    + rewrite <- (sw_unspec _ _ _ _ X). apply lookup_absent. rewrite revalue_fst. intros H. apply Hh in H. discriminate.
  - intros _. eexists. split; [exact HE'|]. rewrite revalue_fst. exact Hin.
Qed.

(** ** The order *)

Lemma turns_in ix sh j : ok_index ix sh -> positive sh -> In j (turns ix sh) <-> in_box j (slice_shape ix sh).
Proof.
  intros Hok Hp. unfold turns. rewrite in_flat_map. split.
  - intros (i & _ & Hj). destruct (find _ _) as [j'|] eqn:E; [|destruct Hj]. destruct Hj as [<-|[]].
    apply find_some in E. destruct E as [E _]. now apply In_all_indices.
  - intros Hj. exists (source_index ix sh j). split; [apply In_all_indices; now apply source_index_in_box|].
    destruct (find _ _) as [j'|] eqn:E.
    + apply find_some in E. destruct E as [E1 E2]. apply In_all_indices in E1. apply same_index_iff in E2.
      left. now apply (source_inj ix sh).
    + apply In_all_indices in Hj. pose proof (find_none _ _ E j Hj) as Q. cbv beta in Q.
      rewrite (proj2 (same_index_iff _ _) eq_refl) in Q. discriminate.
Qed.

Lemma turns_sorted ix sh : StronglySorted row_major_lt (map (source_index ix sh) (turns ix sh)).
Proof.
  unfold turns. change (all_indices sh) with (cart sh). generalize (all_indices (slice_shape ix sh)) as js. intros js.
  pose proof (cart_sorted sh) as S. induction S as [|i l S IH F]; cbn [flat_map map]; [constructor|].
  rewrite map_app. destruct (find _ js) as [j|] eqn:E; [|exact IH]. cbn [map app].
  apply find_some in E. destruct E as [_ E]. apply same_index_iff in E. constructor; [exact IH|].
  rewrite E. apply Forall_forall. intros i' Hi'. apply in_map_iff in Hi'. destruct Hi' as (j' & <- & Hj').
  apply in_flat_map in Hj'. destruct Hj' as (i2 & Hi2 & Hj'). destruct (find _ js) as [j2|] eqn:E2; [|destruct Hj'].
  destruct Hj' as [<-|[]]. apply find_some in E2. destruct E2 as [_ E2]. apply same_index_iff in E2. rewrite E2.
  rewrite Forall_forall in F. now apply F.
Qed.

Lemma map_inj_in {A B} (f : A -> B) : forall l l', (forall x y, In x l -> In y l' -> f x = f y -> x = y) -> map f l = map f l' -> l = l'.
Proof.
  induction l as [|x l IH]; intros [|y l'] H E; try discriminate; [reflexivity|]. cbn [map] in E. injection E as E1 E2.
  f_equal; [apply H; cbn; auto|]. apply IH; [|exact E2]. intros a b Ha Hb. apply H; now right.
Qed.

(** A list of indices of the slice that is in order and complete, up to those
    without a place, is the list of turns without them. *)
Lemma turns_filter ix sh (has : list Z -> bool) js : ok_index ix sh -> positive sh ->
  StronglySorted row_major_lt (map (source_index ix sh) js) ->
  (forall j, In j js <-> in_box j (slice_shape ix sh) /\ has (source_index ix sh j) = true) ->
  js = filter (fun j => has (source_index ix sh j)) (turns ix sh).
Proof.
  intros Hok Hp Hso Hin.
  assert (K : forall j, In j (filter (fun j => has (source_index ix sh j)) (turns ix sh)) <-> In j js).
  { intros j. rewrite filter_In, Hin, turns_in by assumption. reflexivity. }
  apply (map_inj_in (source_index ix sh)).
  - intros x y Hx Hy. apply K in Hy. apply Hin in Hx, Hy. apply source_inj; tauto.
  - apply sorted_unique; [exact Hso| |].
    + pose proof (turns_sorted ix sh) as S. revert S. generalize (turns ix sh) as l. intros l S.
      induction l as [|j l IH]; cbn [map filter] in *; [constructor|]. inversion S as [|? ? S' F]; subst.
      destruct (has _); [|now apply IH]. cbn [map]. constructor; [now apply IH|].
      rewrite Forall_forall in F |- *. intros i Hi. apply in_map_iff in Hi. destruct Hi as (j' & <- & Hj').
      apply filter_In in Hj'. apply F. apply in_map. tauto.
    + intros i. rewrite !in_map_iff. split; intros (j & E & Hj); exists j; (split; [exact E|]); now apply K.
Qed.

(** Indices without a place change nothing. *)
Definition meq (m m' : machine) : Prop := arrs m = arrs m' /\ forall r p, content m r p = content m' r p.
Lemma meq_value m m' v j : meq m m' -> avalue m v j = avalue m' v j.
Proof.
  intros [E H]. destruct v as [w|k]; [reflexivity|]. cbn [avalue]. rewrite <- E.
  destruct (nth_error (arrs m) k) as [b|]; [|reflexivity]. unfold aread. now rewrite H.
Qed.
Lemma meq_put m m' a i w : meq m m' -> meq (aput m a i w) (aput m' a i w).
Proof. intros [E H]. split; [exact E|]. intros r p. unfold aput. cbn [content]. now rewrite H. Qed.
Lemma fold_filter a v src js : forall m m', meq m m' ->
  meq (fold_left (fun m' j => aput m' a (src j) (avalue m' v j)) (filter (fun j => a_has a (src j)) js) m)
      (fold_left (fun m' j => aput m' a (src j) (avalue m' v j)) js m').
Proof.
  induction js as [|j js IH]; intros m m' M; cbn [filter fold_left]; [exact M|].
  destruct (a_has a (src j)) eqn:E; cbn [fold_left]; apply IH.
  - rewrite (meq_value _ _ v j M). now apply meq_put.
  - destruct M as [M1 M2]. split; [exact M1|]. intros r p. unfold aput. cbn [content]. rewrite E.
    destruct (Nat.eqb _ _); cbn [andb]; apply M2.
Qed.

Lemma in_turn_ext st m a ix v js : ok_index ix (a_shape a) -> positive (a_shape a) ->
  StronglySorted row_major_lt (map (source_index ix (a_shape a)) js) ->
  (forall j, In j js <-> in_box j (slice_shape ix (a_shape a)) /\ a_has a (source_index ix (a_shape a) j) = true) ->
  refines st (fold_left (fun m' j => aput m' a (source_index ix (a_shape a) j) (avalue m' v j)) js m) ->
  refines st (in_turn m a ix v).
Proof.
  intros Hok Hp Hso Hin R. rewrite (turns_filter ix (a_shape a) (a_has a) js Hok Hp Hso Hin) in R.
  destruct (fold_filter a v (source_index ix (a_shape a)) (turns ix (a_shape a)) m m (conj eq_refl (fun _ _ => eq_refl))) as [M1 M2].
  eapply refines_ext; [exact M1|exact M2|exact R].
Qed.

(** ** The loop *)

Lemma turn_loop {P} vs k a src v (w : heap -> P -> pyval -> outcome) source (I : heap -> Prop) :
  forall (L : list (list Z * P)) h m, I h -> refines (St h vs) m -> nth_error (arrs m) k = Some a ->
  (forall h0 m0 j p y, In (j, p) L -> I h0 -> refines (St h0 vs) m0 -> nth_error (arrs m0) k = Some a ->
     exists h1, w h0 p y = (h1, Ok tt) /\ I h1 /\ refines (St h1 vs) (aput m0 a (source j) y)) ->
  (forall h0 m0 j p, In (j, p) L -> refines (St h0 vs) m0 -> arrs m0 = arrs m -> get_value h0 src j = Ok (avalue m0 v j)) ->
  exists h', write_loop w src L h = (h', Ok tt)
    /\ refines (St h' vs) (fold_left (fun m' j => aput m' a (source j) (avalue m' v j)) (map fst L) m).
Proof.
  induction L as [|[j p] L IH]; intros h m HI R Ha Hw Hv; cbn [write_loop map fst fold_left]; [eauto|].
  rewrite (Hv h m j p (or_introl eq_refl) R eq_refl).
  destruct (Hw h m j p (avalue m v j) (or_introl eq_refl) HI R Ha) as (h1 & -> & HI1 & R1).
  apply IH; auto.
  - intros h0 m0 j0 p0 y Hin. apply Hw. now right.
  - intros h0 m0 j0 p0 Hin R0 E0. apply (Hv h0 m0 j0 p0); [now right|exact R0|exact E0].
Qed.

Lemma separated_set st a l : separated st -> separated (St (set_nth a l (sheap st)) (vars st)).
Proof.
  intros [H1 H2 H3 H4]. constructor; cbn [vars sheap]; auto. intros x b Hx Hb. rewrite set_nth_length. now apply (H1 x).
Qed.

(** ** Assignments to slices *)

(** [value] has an element for each index of a slice of shape [sh]. *)
Definition fits (st : state) (value : operand) (sh : list Z) : Prop :=
  match value with
  | OList v => forall j, in_box j sh -> exists w, nested_at v j = Some w
  | OVar k => exists y, nth_error (vars st) k = Some y /\ forall j, in_box j sh -> in_box j (shape_of (vsto y))
  end.

(** A slice of an array that assignments to slices write to: Strided, COO,
    FlatCOO, CSR, and DM over Strided or Buffer data. *)
Definition slice_of (s : storage) (ix : pyindex) : Prop :=
  slice_writes s /\ positive (shape_of s) /\ ok_index ix (shape_of s) /\ slice_shape ix (shape_of s) <> [].

Lemma turn_step st m k ix v x a : separated st -> refines st m ->
  nth_error (vars st) k = Some x -> nth_error (arrs m) k = Some a ->
  slice_of (vsto x) ix -> ~ is_strided (vsto x) -> fits st v (slice_shape ix (shape_of (vsto x))) ->
  refines (fst (step st (Assign k ix v))) (in_turn m a ix v) /\ snd (step st (Assign k ix v)) = Ok tt.
Proof.
  intros Hs Hr Ek Ha (Hw & Hp & Hok & Hne) Nst Hfit. pose proof (rf_shows _ _ Hr k x a Ek Ha) as X.
  pose proof (sw_shape _ _ _ _ X) as Sx. set (sh := shape_of (vsto x)) in *.
  destruct (sw_values _ _ _ _ X) as (f & Hf & Hval).
  assert (G : exists src, step st (Assign k ix v) = (let '(h', r) := setitem (sheap st) (vsto x) ix src in (St h' (vars st), r))
    /\ forall h0 m0 j, in_box j (slice_shape ix sh) -> refines (St h0 (vars st)) m0 -> get_value h0 src j = Ok (avalue m0 v j)).
  { cbn [step]. unfold with_var. rewrite Ek. destruct v as [w|k'].
    - exists (SrcSeq w). split; [reflexivity|]. intros h0 m0 j Hj _. destruct (Hfit j Hj) as [z Hz].
      cbn [avalue get_value]. unfold list_value. rewrite Hz. now apply nested_at_get.
    - destruct Hfit as (y & Ey & Hbox). rewrite Ey. exists (SrcSto (vsto y)). split; [reflexivity|].
      intros h0 m0 j Hj R0. destruct (rf_arr _ m0 k' y R0 Ey) as (b & Hb & Y). cbn [sheap] in Y.
      destruct (sw_values _ _ _ _ Y) as (g & Hg & Hvy). cbn [avalue]. rewrite Hb.
      rewrite (get_value_repr _ _ g j Hg); [|intros E0; pose proof (Hbox j Hj) as B; rewrite E0 in B; apply in_box_nil in B;
        subst j; apply Hne; now inversion Hj|now apply Hbox].
      f_equal. apply Hvy. rewrite <- (sw_shape _ _ _ _ Y). now apply Hbox. }
  destruct G as (src & -> & Hread).
  assert (Hsrc : forall j, in_box j (slice_shape ix sh) -> in_box (source_index ix sh j) sh)
    by (intros j Hj; now apply source_index_in_box).
  assert (C : is_sparse (vsto x) \/ (exists sh' rd rsh rs ro d, vsto x = SDM sh' rd rsh rs ro d /\ elem_data d)).
  { destruct (vsto x) as [| | | | | |sh' rd rsh rs ro d]; try (left; exact I); try contradiction; try (exfalso; apply Nst; exact I).
    right. eexists _, _, _, _, _, _. split; [reflexivity|]. destruct d; try contradiction; exact I. }
  destruct C as [Dx|(sh' & rd & rsh & rs & ro & d & Ev & Hed)].
  - (* COO, FlatCOO, CSR *)
    destruct (sw_stored _ _ _ _ X Dx) as (E & HE & Hin). pose proof (entries_ordered _ _ _ HE) as Ho.
    destruct (sparse_positions _ _ E ix HE Hp Hok Hne) as (L & d & EL & Ed & HL & _).
    rewrite (sparse_setitem_run _ _ ix src d L Dx (entries_separate _ _ _ HE) EL).
    assert (HK : forall j p, In (j, p) L -> in_box j (slice_shape ix sh) /\ 0 <= p < zlen E
                   /\ source_index ix sh j = fst (nth (Z.to_nat p) E ([], VNone))).
    { intros j p Hin'. apply HL in Hin'. destruct Hin' as [Hj Hin']. apply In_numbered in Hin'. tauto. }
    destruct (turn_loop (vars st) k a src v (buf_write d) (source_index ix (a_shape a))
                (fun h0 => separated (St h0 (vars st))) L (sheap st) m) as (h' & E1 & R').
    + destruct st; exact Hs.
    + destruct st; exact Hr.
    + exact Ha.
    + intros h0 m0 j p y Hjp Hs0 R0 Ha0. destruct (HK j p Hjp) as (Hj & Hpz & Ej).
      pose proof (rf_shows _ _ R0 k x a Ek Ha0) as X0. destruct (sw_stored _ _ _ _ X0 Dx) as (E0 & HE0 & Hin0). cbn [sheap] in HE0.
      assert (Ek0 : map fst E0 = map fst E).
      { apply sorted_unique; [apply (entries_ordered _ _ _ HE0)|apply Ho|]. intros i.
        assert (B : forall F, entries h0 (vsto x) F \/ entries (sheap st) (vsto x) F -> In i (map fst F) -> in_box i (a_shape a)).
        { intros F HF Hi. rewrite <- Sx. assert (HO : ordered (shape_of (vsto x)) F) by (destruct HF as [HF|HF]; exact (entries_ordered _ _ _ HF)).
          destruct HO as [HO _]. rewrite Forall_forall in HO. apply in_map_iff in Hi. destruct Hi as (e & <- & He). now apply HO. }
        split; intros Hi.
        - pose proof (B E0 (or_introl HE0) Hi) as Bi. apply (Hin i Bi). now apply (Hin0 i Bi).
        - pose proof (B E (or_intror HE) Hi) as Bi. apply (Hin0 i Bi). now apply (Hin i Bi). }
      assert (Hlen : length E0 = length E) by (rewrite <- (map_length fst E0), Ek0; apply map_length).
      destruct (entries_data _ _ _ HE0) as (d0 & Ed0 & (l & Hl & _) & _ & Ead). rewrite Ed in Ed0. injection Ed0 as <-.
      assert (Hpz0 : 0 <= p < zlen E0) by (unfold zlen in *; rewrite Hlen; exact Hpz).
      assert (Ej0 : source_index ix sh j = fst (nth (Z.to_nat p) E0 ([], VNone))).
      { rewrite Ej. change (@nil Z) with (fst (@nil Z, VNone)). rewrite <- !(map_nth fst). now rewrite Ek0. }
      exists (set_nth (baddr d) (set_nth (Z.to_nat (boff d + p)) y l) h0). split.
      { unfold buf_write, buf_set. rewrite (cell_ok _ _ _ Hl). cbn [bind].
        rewrite pyset_ok by (apply (entries_range _ _ E0 d l HE0 Ed Hl p Hpz0)). reflexivity. }
      split; [exact (separated_set (St h0 (vars st)) _ _ Hs0)|].
      rewrite <- Sx. fold sh. exact (poke_sparse (St h0 (vars st)) m0 k x a E0 d p _ y l Hs0 R0 Ek Ha0 HE0 Ed Hl Hpz0 Ej0).
    + intros h0 m0 j p Hjp R0 _. apply Hread; [|exact R0]. apply (HK j p Hjp).
    + rewrite E1. cbn [fst snd]. split; [|reflexivity]. rewrite <- Sx in R'. fold sh in R'.
      apply (in_turn_ext _ m a ix v (map fst L)); rewrite <- ?Sx; fold sh; auto.
      * assert (S : StronglySorted Z.lt (map snd L)).
        { fold sh in EL. destruct (normalize_index ix sh) as [nix|]; cbn [bind] in EL; [|discriminate].
          destruct (index_strided _ _ _ _) as [[[sh' st'] off']|]; cbn [bind] in EL; [|discriminate].
          rewrite Ed in EL. cbn [bind] in EL. destruct (slice_iad _ _ _ _ _) as [L'|] eqn:Es; cbn [bind] in EL; [|discriminate].
          injection EL as ->. apply (slice_iad_sorted Z.lt _ _ _ _ _ _ _ (sparse_iad_ok _ _ E HE Hp) Es).
          unfold numbered. rewrite map_map. cbn [snd]. rewrite map_id. apply zseq_sorted. }
        apply sorted_unmap in S. rewrite map_map. apply (sorted_map (fun e => source_index ix sh (fst e)) _ row_major_lt L) in S; [exact S|].
        intros [j p] [j' p'] Hj Hj' Hlt. cbn [fst snd] in *. destruct (HK _ _ Hj) as (_ & Q1 & ->), (HK _ _ Hj') as (_ & Q2 & ->).
        apply (ordered_nth sh); unfold zlen in *; [exact Ho|lia|lia].
      * intros j. rewrite in_map_iff. split.
        -- intros ([j' p] & <- & Hjp). cbn [fst]. apply HL in Hjp. destruct Hjp as [Hj Hjp]. split; [exact Hj|].
           apply Hin; [rewrite <- Sx; now apply Hsrc|]. rewrite <- numbered_fst. now apply (in_map fst) in Hjp.
        -- intros [Hj Hh]. apply Hin in Hh; [|rewrite <- Sx; now apply Hsrc]. rewrite <- numbered_fst in Hh.
           apply in_map_iff in Hh. destruct Hh as ([i p] & Ei & Hip). cbn [fst] in Ei. subst i. exists (j, p).
           split; [reflexivity|]. now apply HL.
  - (* DM *)
    assert (Dx : dense_based (vsto x)) by (rewrite Ev; destruct d; try contradiction; exact I).
    pose proof (sw_all _ _ _ _ X (dense_not_sparse _ Dx)) as Allx.
    pose proof Hf as Hf'. rewrite Ev in Hf'. destruct Hf' as (g & Hg & Hm & Hfg).
    assert (Esh : sh = sh') by (unfold sh; now rewrite Ev). subst sh'.
    destruct (dm_positions _ _ _ _ _ _ ix Hm Hp Hok Hne) as (L & EL & HL & _ & Hb).
    rewrite Ev. rewrite (dm_setitem_run _ _ _ _ _ _ _ _ _ _ EL).
    destruct (turn_loop (vars st) k a src v (fun h r v => setitem h d (int_tuple r) (SrcSeq v)) (source_index ix (a_shape a))
                (fun h0 => separated (St h0 (vars st))) L (sheap st) m) as (h' & E1 & R').
    + destruct st; exact Hs.
    + destruct st; exact Hr.
    + exact Ha.
    + intros h0 m0 j p y Hjp Hs0 R0 Ha0. pose proof Hjp as Hjp'. apply HL in Hjp'. destruct Hjp' as [Hj Ep].
      pose proof (rf_shows _ _ R0 k x a Ek Ha0) as X0. destruct (sw_values _ _ _ _ X0) as (f0 & Hf0 & _). cbn [sheap] in Hf0.
      pose proof Hf0 as Hf0'. rewrite Ev in Hf0'. destruct Hf0' as (g0 & Hg0 & _ & _).
      destruct (repr_spot _ _ f0 Dx Hf0) as (l & Hl & _).
      assert (Hl' : nth_error h0 (data_addr d) = Some l) by (rewrite Ev in Hl; exact Hl).
      rewrite Forall_forall in Hb. pose proof (Hb _ Hjp) as Bp. cbn [snd] in Bp.
      eexists. split; [exact (elem_write_spot d h0 g0 l p y Hed Hg0 Hl' Bp)|].
      split; [exact (separated_set (St h0 (vars st)) _ _ Hs0)|].
      rewrite <- Sx. fold sh.
      pose proof (poke_dense (St h0 (vars st)) m0 k x a (source_index ix sh j) y l Hs0 R0 Ek Ha0 Dx
                    ltac:(rewrite <- Sx; now apply Hsrc) Hl) as Q.
      rewrite Ev in Q. cbn [data_addr spot sheap vars] in Q. rewrite <- Ep in Q. exact Q.
    + intros h0 m0 j p Hjp R0 _. apply Hread; [|exact R0]. now apply HL in Hjp.
    + rewrite E1. cbn [fst snd]. split; [|reflexivity]. rewrite <- Sx in R'. fold sh in R'.
      apply (in_turn_ext _ m a ix v (map fst L)); rewrite <- ?Sx; fold sh; auto.
      * set (R := fun p q => forall i k, in_box i sh -> in_box k sh -> p = dm_index rd rs ro i -> q = dm_index rd rs ro k -> row_major_lt i k).
        assert (So : StronglySorted R (map snd L)).
        { destruct (normalize_index ix sh) as [nix|]; cbn [bind] in EL; [|discriminate].
          destruct (index_strided _ _ _ _) as [[[sh' st'] off']|]; cbn [bind] in EL; [|discriminate].
          apply (slice_iad_sorted R _ _ _ _ _ _ _ (dm_iad_ok _ _ _ _ _ _ Hm) EL).
          rewrite map_map. cbn [snd]. apply (sorted_map _ row_major_lt); [|apply cart_sorted].
          intros i0 k0 Hi Hk0 Hlt i' k' Hi' Hk' Ei Ek'. apply In_cart in Hi, Hk0.
          apply (dm_inj _ _ _ _ _ _ Hm) in Ei, Ek'; auto. now subst. }
        apply sorted_unmap in So. rewrite map_map. apply (sorted_map (fun e => source_index ix sh (fst e)) _ row_major_lt L) in So; [exact So|].
        intros [j p] [j' p'] H1 H2 Hlt. cbn [fst snd] in *. apply HL in H1, H2. destruct H1 as [Bj ->]. destruct H2 as [Bk ->].
        apply Hlt; auto.
      * intros j. rewrite in_map_iff, Allx. split.
        -- intros ([j' p] & <- & Hjp). apply HL in Hjp. tauto.
        -- intros [Hj _]. eexists. split; [|apply HL; split; [exact Hj|reflexivity]]. reflexivity.
Qed.

(** ** C117 *)

(** The operations of C116, and every assignment to a slice, wherever its values
    come from. *)
Definition supported_all (st : state) (o : op) : Prop :=
  supported_too st o
  \/ exists k ix value x, o = Assign k ix value /\ nth_error (vars st) k = Some x /\ slice_of (vsto x) ix
       /\ fits st value (slice_shape ix (shape_of (vsto x))).
Definition covered_all (ops : list op) : Prop :=
  forall before o after, ops = before ++ o :: after -> supported_all (run before) o.

Lemma covered_too_covered_all ops : covered_too ops -> covered_all ops.
Proof. intros H b o a E. left. now apply (H b o a). Qed.

Lemma strided_dec s : is_strided s \/ ~ is_strided s.
Proof. destruct s; cbn; auto. Qed.

(** A step of the machine on a slice of a sparse or DM array. *)
Lemma tstep_slice st m k ix v x a : refines st m -> nth_error (vars st) k = Some x -> nth_error (arrs m) k = Some a ->
  slice_of (vsto x) ix -> ~ is_strided (vsto x) -> tstep m (Assign k ix v) = in_turn m a ix v.
Proof.
  intros Hr Ek Ha (Hw & _ & _ & Hne) N. pose proof (rf_shows _ _ Hr k x a Ek Ha) as X. cbn [tstep]. unfold awith. rewrite Ha.
  rewrite (sw_shape _ _ _ _ X) in Hne. pose proof (sw_cls _ _ _ _ X) as C.
  destruct (vsto x), (a_cls a); try contradiction; cbn [floods]; try (exfalso; apply N; exact I);
    (destruct (slice_shape ix (a_shape a)); [congruence|reflexivity]).
Qed.
(** On Buffer and Strided arrays the machine is that of C58. *)
Lemma tstep_strided st m k ix v x : refines st m -> nth_error (vars st) k = Some x ->
  match vsto x with SBuffer _ | SStrided _ => True | _ => False end -> tstep m (Assign k ix v) = astep m (Assign k ix v).
Proof.
  intros Hr Ek H. destruct (rf_arr st m k x Hr Ek) as (a & Ha & X). cbn [tstep astep]. unfold awith. rewrite Ha.
  pose proof (sw_cls _ _ _ _ X) as C. destruct (vsto x), (a_cls a); try contradiction; reflexivity.
Qed.

Lemma refines_step_all st m o : separated st -> good st -> refines st m -> supported_all st o ->
  refines (fst (step st o)) (tstep m o) /\ snd (step st o) = Ok tt.
Proof.
  intros Hs Hg Hr H.
  assert (T : forall k ix v x, o = Assign k ix v -> nth_error (vars st) k = Some x -> slice_of (vsto x) ix -> ~ is_strided (vsto x) ->
    fits st v (slice_shape ix (shape_of (vsto x))) -> refines (fst (step st o)) (tstep m o) /\ snd (step st o) = Ok tt).
  { intros k ix v x -> Ek Hsl N Hfit. destruct (rf_arr st m k x Hr Ek) as (a & Ha & X).
    rewrite (tstep_slice st m k ix v x a Hr Ek Ha Hsl N). now apply (turn_step st m k ix v x a). }
  destruct H as [[H|(k & ix & v & x & -> & Ek & He)]|(k & ix & v & x & -> & Ek & Hsl & Hfit)].
  - destruct o as [c v u|v u d p c|k c u|k d p c u|k ix|k u|k ix v]; try (now apply refines_step).
    pose proof H as (x & Ek & Hw & Hv).
    assert (D : match vsto x with SBuffer _ | SStrided _ => True | _ => False end \/ (slice_of (vsto x) ix /\ ~ is_strided (vsto x))).
    { destruct (vsto x); try (left; exact I); right; (split; [exact Hw|intros []]). }
    destruct D as [D|[D N]].
    + rewrite (tstep_strided st m k ix v x Hr Ek D). now apply refines_step.
    + apply (T k ix v x eq_refl Ek D N). destruct v as [w|k']; [exact Hv|]. destruct Hv as (_ & y & Ey & _ & Hbox). exists y. auto.
  - pose proof (flooding_step st m k ix v x Hs Hr Ek He) as Q.
    replace (tstep m (Assign k ix (OList v))) with (fstep m (Assign k ix (OList v))); [exact Q|].
    destruct (rf_arr st m k x Hr Ek) as (a & Ha & X). cbn [tstep fstep]. unfold awith. rewrite Ha.
    destruct He as (_ & _ & _ & Hnil). rewrite <- (sw_shape _ _ _ _ X), Hnil. reflexivity.
  - destruct (strided_dec (vsto x)) as [S|N]; [|exact (T k ix v x eq_refl Ek Hsl N Hfit)].
    assert (Sup : supported st (Assign k ix v)).
    { exists x. split; [exact Ek|]. destruct Hsl as (_ & Hp & Hok & Hne). split.
      - destruct (vsto x); try contradiction. split; [exact Hp|exact Hok].
      - destruct v as [w|k']; [exact Hfit|]. split; [exact Hne|]. destruct Hfit as (y & Ey & Hbox). exists y. auto. }
    rewrite (tstep_strided st m k ix v x Hr Ek); [now apply refines_step|]. destruct (vsto x); try contradiction; exact I.
Qed.

Lemma supported_all_allowed st o : supported_all st o -> allowed st o.
Proof. intros [H|(k & ix & v & x & -> & _)]; [now apply supported_too_allowed|exact I]. Qed.
Lemma covered_all_snoc ops o : covered_all (ops ++ [o]) -> covered_all ops /\ supported_all (run ops) o.
Proof.
  intros H. split; [|now apply (H ops o [])]. intros b x a E. apply (H b x (a ++ [o])). rewrite E, <- app_assoc. reflexivity.
Qed.
Lemma covered_all_add ops o : covered_all ops -> supported_all (run ops) o -> covered_all (ops ++ [o]).
Proof.
  intros H Ha b x a E. destruct a as [|y a].
  - apply app_inj_tail in E. destruct E as [-> ->]. exact Ha.
  - destruct (exists_last (l := y :: a)) as (a' & z & Ea); [discriminate|]. rewrite Ea in E.
    change (x :: a' ++ [z]) with ((x :: a') ++ [z]) in E. rewrite app_assoc in E. apply app_inj_tail in E.
    destruct E as [-> _]. now apply (H b x a').
Qed.
Lemma covered_all_legal ops : covered_all ops -> legal ops.
Proof. intros H b o a E. now apply supported_all_allowed, (H b o a). Qed.
Lemma trun_snoc ops o : trun (ops ++ [o]) = tstep (trun ops) o.
Proof. unfold trun. now rewrite fold_left_app. Qed.

Lemma run_refines_all ops : covered_all ops -> refines (run ops) (trun ops).
Proof.
  induction ops as [|o ops IH] using rev_ind; intros H.
  - constructor; cbn; [reflexivity| |]; intros k; intros; destruct k; discriminate.
  - apply covered_all_snoc in H. destruct H as [H1 H2]. rewrite run_snoc, trun_snoc.
    apply refines_step_all; auto; [apply run_separated|now apply run_good, covered_all_legal].
Qed.

(** After any such program each variable is the array the machine says. *)
Theorem C117_programs : forall ops, covered_all ops ->
  length (vars (run ops)) = length (arrs (trun ops))
  /\ forall k x a, nth_error (vars (run ops)) k = Some x -> nth_error (arrs (trun ops)) k = Some a ->
       is_class (a_cls a) (vsto x) /\ shape_of (vsto x) = a_shape a /\ unspecified_of (vsto x) = a_unspec a
       /\ (forall i, in_box i (a_shape a) -> get_elem (sheap (run ops)) (vsto x) i = Ok (aread (trun ops) a i))
       /\ (sparse_class (a_cls a) = true -> positive (a_shape a) ->
             forall i, in_box i (a_shape a) -> (stored (sheap (run ops)) (vsto x) i <-> a_has a i = true)).
Proof.
  intros ops H. pose proof (run_refines_all ops H) as R. split; [apply R|]. intros k x a Hk Ha.
  pose proof (rf_shows _ _ R k x a Hk Ha) as X. split; [apply X|]. split; [apply X|]. split; [apply X|]. split.
  - intros i Hi. destruct (sw_values _ _ _ _ X) as (f & Hf & Hv). rewrite <- (Hv i Hi). apply repr_get; [exact Hf|].
    now rewrite (sw_shape _ _ _ _ X).
  - intros Hc Hp i Hi.
    assert (Sx : is_sparse (vsto x)) by (pose proof (sw_cls _ _ _ _ X) as C; destruct (a_cls a), (vsto x); try discriminate; contradiction || exact I).
    destruct (sw_stored _ _ _ _ X Sx) as (E & HE & Hin). rewrite <- (Hin i Hi). apply stored_sparse; [exact HE|].
    now rewrite (sw_shape _ _ _ _ X).
Qed.
Print Assumptions C117_programs.

Theorem C117_no_exceptions : forall ops o, covered_all ops -> supported_all (run ops) o -> snd (step (run ops) o) = Ok tt.
Proof.
  intros ops o H Ho. apply (refines_step_all (run ops) (trun ops) o); auto; [apply run_separated| |now apply run_refines_all].
  now apply run_good, covered_all_legal.
Qed.
Print Assumptions C117_no_exceptions.

(** Until an element is overwritten its value stays. *)
Lemma turns_keep a v src r p : forall js m,
  (forall j, In j js -> a_home a = r -> a_has a (src j) = true -> a_at a (src j) <> p) ->
  content (fold_left (fun m' j => aput m' a (src j) (avalue m' v j)) js m) r p = content m r p.
Proof.
  induction js as [|j js IH]; intros m H; cbn [fold_left]; [reflexivity|]. rewrite IH by (intros j' Hj'; apply H; now right).
  unfold aput. cbn [content]. destruct (Nat.eqb r (a_home a)) eqn:Er; [|reflexivity]. apply Nat.eqb_eq in Er.
  destruct (a_has a (src j)) eqn:E; [|reflexivity]. cbn [andb]. destruct (same_index _ _) eqn:Es; [|reflexivity].
  apply same_index_iff in Es. exfalso. exact (H j (or_introl eq_refl) (eq_sym Er) E Es).
Qed.
Lemma turns_arrs a v src : forall js m, arrs (fold_left (fun m' j => aput m' a (src j) (avalue m' v j)) js m) = arrs m.
Proof. induction js as [|j js IH]; intros m; cbn [fold_left]; [reflexivity|]. now rewrite IH. Qed.

Lemma at_inj st m k x a : refines st m -> nth_error (vars st) k = Some x -> nth_error (arrs m) k = Some a ->
  dense_based (vsto x) \/ is_sparse (vsto x) ->
  forall i j, in_box i (a_shape a) -> in_box j (a_shape a) -> a_at a i = a_at a j -> i = j.
Proof.
  intros Hr Ek Ha D i j Hi Hj E. pose proof (rf_shows _ _ Hr k x a Ek Ha) as X. destruct D as [D|S].
  - destruct (rf_shares _ _ Hr k k x x a a Ek Ha Ek Ha eq_refl) as [(_ & _ & _ & H)|(S & _)].
    + apply H in E; auto. destruct (sw_values _ _ _ _ X) as (f & Hf & _).
      apply (spot_inj _ _ f D Hf) in E; auto; now rewrite (sw_shape _ _ _ _ X).
    + exfalso. pose proof (sparse_view _ S) as V. rewrite (dense_view _ D) in V. discriminate.
  - assert (V : is_view_class (vsto x) = false) by (destruct (vsto x); try contradiction; reflexivity).
    rewrite (sw_views _ _ _ _ X) in V. now rewrite !(sw_at _ _ _ _ X V) in E.
Qed.

(** An element of a sparse or DM array gets the value that the other array had
    before the assignment, unless an element whose turn came earlier is the same
    element as the one that value is read from. *)
Theorem C117_in_time : forall ops k k' ix x y a b j, covered_all ops ->
  nth_error (vars (run ops)) k = Some x -> nth_error (vars (run ops)) k' = Some y ->
  nth_error (arrs (trun ops)) k = Some a -> nth_error (arrs (trun ops)) k' = Some b ->
  slice_of (vsto x) ix -> ~ is_strided (vsto x) -> fits (run ops) (OVar k') (slice_shape ix (shape_of (vsto x))) ->
  in_box j (slice_shape ix (shape_of (vsto x))) -> a_has a (source_index ix (shape_of (vsto x)) j) = true ->
  (forall i, row_major_lt i (source_index ix (shape_of (vsto x)) j) -> a_home a = a_home b -> a_has a i = true ->
     (exists j', in_box j' (slice_shape ix (shape_of (vsto x))) /\ source_index ix (shape_of (vsto x)) j' = i) ->
     a_at a i <> a_at b j) ->
  get_elem (sheap (run (ops ++ [Assign k ix (OVar k')]))) (vsto x) (source_index ix (shape_of (vsto x)) j)
  = get_elem (sheap (run ops)) (vsto y) j.
Proof.
  intros ops k k' ix x y a b j H Ek Ek' Ha Hb Hsl N Hfit Hj Hhas Hearly.
  pose proof (run_refines_all ops H) as R. set (o := Assign k ix (OVar k')).
  assert (So : supported_all (run ops) o) by (right; exists k, ix, (OVar k'), x; auto).
  pose proof (run_refines_all _ (covered_all_add _ _ H So)) as R'.
  pose proof (rf_shows _ _ R k x a Ek Ha) as X. pose proof (rf_shows _ _ R k' y b Ek' Hb) as Y.
  pose proof (sw_shape _ _ _ _ X) as Sx. rewrite trun_snoc in R'. unfold o in R' at 2.
  rewrite (tstep_slice _ _ _ _ _ x a R Ek Ha Hsl N) in R'.
  set (m := trun ops) in *. set (sh := shape_of (vsto x)) in *.
  assert (D : dense_based (vsto x) \/ is_sparse (vsto x)).
  { destruct Hsl as (Hw & _). destruct (vsto x) as [| | | | | |? ? ? ? ? s]; cbn in Hw |- *; try contradiction; try (right; exact I); left;
      try exact I. destruct s; try contradiction; exact I. }
  destruct Hsl as (Hw & Hp & Hok & Hne). fold sh in Hp, Hok, Hne.
  assert (Ek2 : nth_error (vars (run (ops ++ [o]))) k = Some x).
  { rewrite run_snoc. unfold o. cbn [step]. unfold with_var. rewrite Ek, Ek'. destruct (setitem _ _ _ _). exact Ek. }
  assert (Ha2 : nth_error (arrs (in_turn m a ix (OVar k'))) k = Some a) by (unfold in_turn; now rewrite turns_arrs).
  pose proof (rf_shows _ _ R' k x a Ek2 Ha2) as X'.
  set (i := source_index ix sh j) in *.
  assert (Bi : in_box i (a_shape a)) by (rewrite <- Sx; now apply source_index_in_box).
  destruct Hfit as (y0 & Ey0 & Hbox). rewrite Ek' in Ey0. injection Ey0 as <-.
  assert (Bj : in_box j (a_shape b)) by (rewrite <- (sw_shape _ _ _ _ Y); now apply Hbox).
  transitivity (Ok (aread (in_turn m a ix (OVar k')) a i)).
  { destruct (sw_values _ _ _ _ X') as (f & Hf & Hv). rewrite <- (Hv i Bi). apply repr_get; [exact Hf|]. now rewrite (sw_shape _ _ _ _ X'). }
  transitivity (Ok (aread m b j)).
  2:{ destruct (sw_values _ _ _ _ Y) as (f & Hf & Hv). rewrite <- (Hv j Bj). symmetry. apply repr_get; [exact Hf|]. now rewrite (sw_shape _ _ _ _ Y). }
  f_equal. unfold aread at 1. rewrite Hhas. unfold in_turn. rewrite <- Sx.
  assert (Hin : In j (turns ix sh)) by (now apply turns_in).
  apply in_split in Hin. destruct Hin as (l1 & l2 & El). pose proof (turns_sorted ix sh) as S. rewrite El in S |- *.
  rewrite map_app in S. cbn [map] in S.
  assert (In1 : forall j', In j' (l1 ++ j :: l2) -> in_box j' (slice_shape ix sh)) by (intros j' Q; rewrite <- El in Q; now apply turns_in in Q).
  rewrite fold_left_app. cbn [fold_left]. set (m1 := fold_left _ l1 m).
  rewrite turns_keep.
  - rewrite aput_content. fold i. rewrite Hhas, (proj2 (same_index_iff _ _) eq_refl). cbn [andb].
    cbn [avalue]. unfold m1 at 1. rewrite turns_arrs, Hb. unfold aread. destruct (a_has b j); [|reflexivity].
    unfold m1. apply turns_keep. intros j' Hj' E1 E2. apply Hearly; auto.
    + clear - S Hj'. induction l1 as [|z l1 IH]; [destruct Hj'|]. cbn [map app] in S. inversion S as [|? ? S' F]; subst.
      destruct Hj' as [<-|Hj']; [|now apply IH]. rewrite Forall_forall in F. apply F. apply in_app_iff. right. now left.
    + exists j'. split; [apply In1, in_app_iff; now left|reflexivity].
  - intros j' Hj' _ _ E. apply (at_inj _ _ k x a R Ek Ha D) in E; auto.
    + assert (B' : in_box j' (slice_shape ix sh)) by (apply In1, in_app_iff; right; now right).
      assert (Lt : row_major_lt i (source_index ix sh j')).
      { clear - S Hj'. induction l1 as [|z l1 IH]; cbn [map app] in S; inversion S as [|? ? S' F]; subst.
        - rewrite Forall_forall in F. apply F, in_map, Hj'.
        - now apply IH. }
      rewrite E in Lt. exact (row_major_lt_irrefl _ Lt).
    + rewrite <- Sx. apply source_index_in_box; auto. apply In1, in_app_iff. right. now right.
Qed.
Print Assumptions C117_in_time.

(** How DM arrays are mapped makes no difference. *)
Theorem C117_remapped : forall ops ops', covered_all ops -> covered_all ops' -> Forall2 remapped ops ops' ->
  length (vars (run ops)) = length (vars (run ops'))
  /\ forall k x y, nth_error (vars (run ops)) k = Some x -> nth_error (vars (run ops')) k = Some y ->
       shape_of (vsto x) = shape_of (vsto y) /\ unspecified_of (vsto x) = unspecified_of (vsto y)
       /\ forall i, in_box i (shape_of (vsto x)) ->
            get_elem (sheap (run ops)) (vsto x) i = get_elem (sheap (run ops')) (vsto y) i.
Proof.
  intros ops ops' H H' R. destruct (C117_programs ops H) as [L P], (C117_programs ops' H') as [L' P'].
  assert (E : trun ops = trun ops').
  { unfold trun. generalize (Machine (fun _ _ => VNone) []) as m. clear - R. intros m. revert m.
    induction R as [|o o' l l' Ho R IH]; intros m; [reflexivity|]. cbn [fold_left].
    replace (tstep m o) with (tstep m o'); [apply IH|].
    destruct Ho as [o|v u d p c d' p' c' E|k u d p c d' p' c' E]; cbn [tstep astep]; rewrite ?E; reflexivity. }
  rewrite <- E in *. split; [congruence|]. intros k x y Hx Hy.
  destruct (nth_error (arrs (trun ops)) k) as [a|] eqn:Ha.
  - destruct (P k x a Hx Ha) as (_ & P1 & P2 & P3 & _), (P' k y a Hy Ha) as (_ & Q1 & Q2 & Q3 & _).
    split; [congruence|]. split; [congruence|]. intros i Hi. rewrite P1 in Hi. rewrite P3, Q3 by exact Hi. reflexivity.
  - exfalso. apply nth_error_None in Ha. rewrite <- L in Ha.
    assert (k < length (vars (run ops)))%nat by (apply nth_error_Some; congruence). lia.
Qed.
Print Assumptions C117_remapped.

(** Turning a 2 x 2 array upside down by [x[::-1] = x]. Where [x] is [s.as_DM()]
    or [s.as_COO()] the second row replaces the first one and is then copied onto
    itself; where [x] is [s.copy()], a Strided array, the first one replaces the
    second one. *)
Definition upside : pyindex := XTuple [ISlice (Sl None None (Some (-1))); ISlice (Sl None None None)].
Definition turned (d p : option (list Z)) : list op :=
  [New CStrided nested_2x2 None; AsDM 0 d p CStrided None; As 0 CCOO None; Copy 0 None;
   Assign 1 upside (OVar 1); Assign 2 upside (OVar 2); Assign 3 upside (OVar 3)].
Lemma turned_covered d p : (d, p) = (None, None) \/ (d, p) = (Some [1; 0], Some [1]) -> covered_all (turned d p).
Proof.
  assert (P : positive [2; 2]) by (repeat constructor; lia).
  intros E. change (turned d p) with ((((firstn 4 (turned d p) ++ [Assign 1 upside (OVar 1)]) ++ [Assign 2 upside (OVar 2)])
    ++ [Assign 3 upside (OVar 3)])).
  assert (H : covered_all (firstn 4 (turned d p))).
  { apply covered_too_covered_all, covered_covered_too. unfold turned. cbn [firstn].
    do 4 only 1: covered_step. all: cbn [supported allowed].
    - apply covered_nil.
    - exists [2; 2]. split; [repeat (split || constructor); cbn; discriminate|]. split; [exact I|discriminate].
    - eexists. split; [vm_compute; reflexivity|]. split; [exact P|].
      split; [|split; [exact I|discriminate]]. destruct E as [E|E]; injection E as -> ->.
      + constructor; try discriminate; reflexivity.
      + constructor; [reflexivity| |].
        * intros q E. injection E as <-. apply perm_swap.
        * intros q E. injection E as <-. split; repeat constructor; lia.
    - destruct E as [E|E]; injection E as -> ->; (eexists; split; [vm_compute; reflexivity|]); (split; [exact P|]);
        (split; [discriminate|]); (split; [split; [discriminate|exact I] || (cbn; discriminate)|]); discriminate.
    - destruct E as [E|E]; injection E as -> ->; vm_compute; lia. }
  destruct E as [E|E]; injection E as -> ->; repeat apply covered_all_add; try exact H; right;
    eexists _, _, _, _; (split; [reflexivity|]); (split; [vm_compute; reflexivity|]);
    (split; [split; [exact I|split; [exact P|split; [index_ok|discriminate]]]|]);
    eexists; (split; [vm_compute; reflexivity|]); intros j J; exact J.
Qed.

Example C117_case : covered_all (turned None None) /\ covered_all (turned (Some [1; 0]) (Some [1]))
  /\ Forall2 remapped (turned None None) (turned (Some [1; 0]) (Some [1]))
  /\ reads_of (trun (turned None None))
     = [[VInt 1; VInt 2; VInt 3; VInt 4]; [VInt 3; VInt 4; VInt 3; VInt 4];
        [VInt 3; VInt 4; VInt 3; VInt 4]; [VInt 1; VInt 2; VInt 1; VInt 2]].
Proof.
  split; [apply turned_covered; now left|]. split; [apply turned_covered; now right|]. split; [|vm_compute; reflexivity].
  unfold turned. repeat constructor.
Qed.

(** The hypotheses of C117_in_time for the first row of the DM array: nothing is
    overwritten before it, so it gets what the second row was. *)
Example C117_in_time_case : let ops := firstn 4 (turned None None) in
  exists x a, nth_error (vars (run ops)) 1 = Some x /\ nth_error (arrs (trun ops)) 1 = Some a
  /\ slice_of (vsto x) upside /\ ~ is_strided (vsto x) /\ fits (run ops) (OVar 1) (slice_shape upside (shape_of (vsto x)))
  /\ in_box [1; 0] (slice_shape upside (shape_of (vsto x))) /\ source_index upside (shape_of (vsto x)) [1; 0] = [0; 0]
  /\ a_has a [0; 0] = true /\ get_elem (sheap (run ops)) (vsto x) [1; 0] = Ok (VInt 3)
  /\ get_elem (sheap (run (ops ++ [Assign 1 upside (OVar 1)]))) (vsto x) [0; 0] = Ok (VInt 3).
Proof.
  assert (P : positive [2; 2]) by (repeat constructor; lia).
  cbv zeta. eexists _, _. split; [vm_compute; reflexivity|]. split; [vm_compute; reflexivity|].
  split; [split; [exact I|split; [exact P|split; [index_ok|discriminate]]]|]. split; [intros []|].
  split; [eexists; split; [vm_compute; reflexivity|]; intros j J; exact J|].
  split; [vm_compute; repeat constructor; discriminate|]. repeat split.
Qed.

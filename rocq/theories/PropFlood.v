(** C116: programs that also assign single elements of sparse and DM arrays. *)
From Coq Require Import Sorting.Sorted Permutation ZifyBool.
From Verif Require Import Py SliceTools Basics Storage Spec SliceFacts IndexFacts
  CompressFacts ReduceFacts SolverFacts SolveFacts Repr ReprFacts ViewFacts BuildFacts SparseFacts
  ConvFacts FromFacts DMFacts ReadFacts MapFacts ChainFacts WriteFacts EffectFacts EqFacts PureFacts AliasFacts
  PropRead PropWrite PropIndex PropReach PropMore RefineFacts Machine PropRefine Flood.

(** One element of a COO, FlatCOO or CSR array, or of a DM array over Strided or
    Buffer data. *)
Definition element_of (s : storage) (ix : pyindex) : Prop :=
  (is_sparse s \/ match s with SDM _ _ _ _ _ (SStrided _) | SDM _ _ _ _ _ (SBuffer _) => True | _ => False end)
  /\ positive (shape_of s) /\ ok_index ix (shape_of s) /\ slice_shape ix (shape_of s) = [].

(** The operations of C58, and assignments of values to such elements. *)
Definition supported_too (st : state) (o : op) : Prop :=
  supported st o
  \/ exists k ix v x, o = Assign k ix (OList v) /\ nth_error (vars st) k = Some x /\ element_of (vsto x) ix.
Definition covered_too (ops : list op) : Prop :=
  forall before o after, ops = before ++ o :: after -> supported_too (run before) o.

Lemma covered_covered_too ops : covered ops -> covered_too ops.
Proof. intros H b o a E. left. now apply (H b o a). Qed.

Lemma existsb_place a p :
  existsb (fun i => a_has a i && same_index (a_at a i) p) (all_indices (a_shape a)) = true
  <-> exists i, in_box i (a_shape a) /\ a_has a i = true /\ a_at a i = p.
Proof.
  rewrite existsb_exists. split.
  - intros (i & Hi & H). apply In_all_indices in Hi. apply andb_true_iff in H. destruct H as [H1 H2].
    apply same_index_iff in H2. eauto.
  - intros (i & Hi & H1 & H2). exists i. split; [now apply In_all_indices|]. rewrite H1. now apply same_index_iff.
Qed.

Lemma flooded_other m a v r p : r <> a_home a -> content (flooded m a v) r p = content m r p.
Proof. intros H. unfold flooded. cbn [content]. apply Nat.eqb_neq in H. now rewrite H. Qed.
Lemma flooded_in m a v i : in_box i (a_shape a) -> a_has a i = true -> content (flooded m a v) (a_home a) (a_at a i) = v.
Proof.
  intros Hi Hh. unfold flooded. cbn [content]. rewrite Nat.eqb_refl. cbn [andb].
  rewrite (proj2 (existsb_place a (a_at a i))); [reflexivity|eauto].
Qed.
Lemma flooded_out m a v p : (forall i, in_box i (a_shape a) -> a_has a i = true -> a_at a i <> p) ->
  content (flooded m a v) (a_home a) p = content m (a_home a) p.
Proof.
  intros H. unfold flooded. cbn [content]. rewrite Nat.eqb_refl. cbn [andb].
  destruct (existsb _ _) eqn:E; [|reflexivity]. apply existsb_place in E. destruct E as (i & H1 & H2 & H3).
  exfalso. now apply (H i).
Qed.

(** What an element assignment to a DM array does to its list. *)
Lemma dm_flood h sh rd rsh rs ro d f l ix v : repr h (SDM sh rd rsh rs ro d) f -> elem_data d ->
  nth_error h (data_addr d) = Some l ->
  positive sh -> ok_index ix sh -> slice_shape ix sh = [] ->
  let s := SDM sh rd rsh rs ro d in
  exists l', setitem h s ix (SrcSeq v) = (set_nth (data_addr d) l' h, Ok tt)
    /\ length l' = length l
    /\ (forall i, in_box i sh -> nth (Z.to_nat (spot s i)) l' VNone = v)
    /\ (forall q, 0 <= q -> (forall i, in_box i sh -> q <> spot s i) -> nth (Z.to_nat q) l' VNone = nth (Z.to_nat q) l VNone).
Proof.
  intros (g & Hg & Hd & Hf) He Hl Hp Hok Hnil s. pose proof Hok as [Hitems _]. subst s.
  set (nix := norm_items (index_items ix) sh).
  assert (Hn : normal_index nix sh) by now apply norm_items_normal.
  assert (Es : n_shape nix sh = []) by (rewrite <- Hnil; now apply norm_items_shape).
  erewrite dm_setitem_run.
  2:{ rewrite normalize_index_ok by assumption. fold nix. cbn [bind].
      rewrite index_strided_ok; [|assumption|assumption|apply make_strides_length]. cbn [bind]. rewrite Z.add_0_l.
      rewrite (dm_iad_ok _ _ _ _ _ _ Hd), Es.
      rewrite (element_strides nix sh (make_strides sh) Es (make_strides_length sh)).
      apply slice_iad_empty.
      apply Forall_forall. intros e Hin. apply in_map_iff in Hin. destruct Hin as (i & <- & Hi).
      apply In_cart in Hi. now apply in_box_len. }
  set (L := map _ _).
  destruct (dm_write_loop_spot d (SrcSeq v) (fun _ => v) He L h g l Hg Hl) as (l' & E1 & E2 & E4 & E5).
  - intros h'' _ vi p Hin. unfold L in Hin. rewrite map_map in Hin. apply in_map_iff in Hin.
    destruct Hin as (i & Ei & _). injection Ei as <- _. reflexivity.
  - unfold L. rewrite !map_map. cbn [snd].
    assert (G : forall js, Forall (fun i => in_box i sh) js -> NoDup js -> NoDup (map (dm_index rd rs ro) js)).
    { induction 1 as [|i js Hi Hjs IH]; intros Hnd; cbn [map]; [constructor|]. inversion Hnd as [|? ? N1 N2]; subst.
      constructor; [|now apply IH]. intros Hin. apply in_map_iff in Hin. destruct Hin as (k & Ek & Hk).
      apply N1. rewrite Forall_forall in Hjs.
      apply (dm_inj _ _ _ _ _ _ Hd) in Ek; auto. now subst k. }
    apply G; [apply Forall_forall; intros i; apply In_cart|apply sorted_NoDup, cart_sorted].
  - unfold L. rewrite map_map. apply Forall_forall. intros e Hin. apply in_map_iff in Hin.
    destruct Hin as (i & <- & Hi). apply In_cart in Hi. cbn [snd]. now apply (dm_box _ _ _ _ _ _ Hd).
  - exists l'. split; [exact E1|]. split; [exact E2|]. cbn [spot]. split.
    + intros i Hi. apply (E4 []). unfold L. rewrite map_map. apply in_map_iff. exists i. split; [reflexivity|now apply In_cart].
    + intros q Hq Hout. apply E5; [exact Hq|]. intros p Hin. unfold L in Hin. rewrite !map_map in Hin. cbn [snd] in Hin.
      apply in_map_iff in Hin. destruct Hin as (i & <- & Hi). apply In_cart in Hi. now apply Hout.
Qed.

Lemma flooding_step st m k ix v x : separated st -> refines st m ->
  nth_error (vars st) k = Some x -> element_of (vsto x) ix ->
  refines (fst (step st (Assign k ix (OList v)))) (fstep m (Assign k ix (OList v)))
  /\ snd (step st (Assign k ix (OList v))) = Ok tt.
Proof.
  intros Hs Hr Ek (Hc & Hp & Hok & Hnil). destruct (rf_arr st m k x Hr Ek) as (a & Ha & X).
  pose proof (nth_in _ _ _ Ek) as Hinx. destruct (sw_values _ _ _ _ X) as (f & Hf & Hval).
  set (da := data_addr (vsto x)) in *.
  assert (Hda : (da < length (sheap st))%nat) by (apply (sp_alive _ Hs x); [exact Hinx|now left]).
  assert (Ef : fstep m (Assign k ix (OList v)) = flooded m a v).
  { cbn [fstep]. unfold awith. rewrite Ha, <- (sw_shape _ _ _ _ X), Hnil.
    pose proof (sw_cls _ _ _ _ X) as C. cbn [avalue]. unfold list_value. cbn [nested_at].
    destruct (vsto x), (a_cls a); try contradiction; cbn [floods]; destruct Hc; try contradiction; reflexivity. }
  rewrite Ef. cbn [step]. unfold with_var. rewrite Ek.
  (* all arrays of another origin stay *)
  assert (G : forall h', (forall b, b <> da -> nth_error h' b = nth_error (sheap st) b) ->
    (forall k' y b, nth_error (vars st) k' = Some y -> nth_error (arrs m) k' = Some b -> origin y = origin x ->
       shows (flooded m a v) h' y b) -> refines (St h' (vars st)) (flooded m a v)).
  { intros h' Hh Hsame. destruct Hr as [L S Sh]. constructor; cbn [vars sheap flooded arrs]; [exact L| |exact Sh].
    intros k' y b Hk' Hb. destruct (Nat.eq_dec (origin y) (origin x)) as [E|E]; [now apply (Hsame k')|].
    eapply shows_frame; [now apply (S k')| |].
    - intros c Hcc. apply Hh. intros ->. destruct Hcc as [Hcc|Hcc].
      + apply E. apply (sp_data _ Hs); try (eapply nth_in; eassumption). exact Hcc.
      + eapply (sp_index _ Hs x y); try (eapply nth_in; eassumption). exact Hcc.
    - intros p. apply flooded_other. rewrite (sw_home _ _ _ _ (S k' y b Hk' Hb)), (sw_home _ _ _ _ X). exact E. }
  destruct Hc as [Dx|Dx].
  - assert (Sx : sparse_based (vsto x)) by (destruct (vsto x); try contradiction; exact I).
    destruct (sw_stored _ _ _ _ X Dx) as (E0 & HE0 & Hin0).
    destruct (sparse_write_element _ _ E0 ix v HE0 Hp Hok Hnil) as (l' & E & HE'). rewrite E. cbn [fst snd].
    split; [|reflexivity]. apply G. { intros b Hb. now apply set_nth_error_other. }
    intros k' y b Ey Hb Eo.
    destruct (rf_shares _ _ Hr k' k y x b a Ey Hb Ek Ha Eo) as [(Dy & Dx' & _)|(Sy & Exy & ->)].
    { exfalso. pose proof (sparse_view _ Sx) as V. rewrite (dense_view _ Dx') in V. discriminate. }
    assert (Hat : forall i, a_at a i = i).
    { apply (sw_at _ _ _ _ X). rewrite <- (sw_views _ _ _ _ X). now apply sparse_view. }
    pose proof (rf_shows _ _ Hr k' y a Ey Hb) as Y.
    assert (Efst : map fst (map_snd (fun _ => v) E0) = map fst E0) by (unfold map_snd; rewrite map_map; reflexivity).
    constructor; try apply Y; rewrite Exy.
    + eexists. split; [exact (repr_entries _ _ _ HE')|]. intros i Hi. unfold aread.
      pose proof (Hin0 i Hi) as Hh. destruct (a_has a i) eqn:Hai.
      * rewrite flooded_in by assumption. apply lookup_map_snd_in. now apply Hh.
      * rewrite <- (sw_unspec _ _ _ _ X). apply lookup_absent. rewrite Efst. intros H. apply Hh in H. discriminate.
    + intros _. eexists. split; [exact HE'|]. rewrite Efst. exact Hin0.
  - destruct (vsto x) as [| | | | | |sh rd rsh rs ro d] eqn:Ev; try contradiction. cbn [shape_of] in *.
    assert (Hed : elem_data d) by (destruct d; try contradiction; exact I).
    assert (Dd : dense_based (vsto x)) by (rewrite Ev; destruct d; try contradiction; exact I).
    rewrite <- Ev in Hf.
    destruct (repr_spot _ _ f Dd Hf) as (l & Hl & Hsp). rewrite Ev in Hl, Hf. cbn [data_addr] in Hl, da.
    destruct (dm_flood _ _ _ _ _ _ _ f l ix v Hf Hed Hl Hp Hok Hnil) as (l' & E & E2 & E3 & E4).
    rewrite E. cbn [fst snd]. split; [|reflexivity]. fold da.
    assert (Hl' : nth_error (set_nth da l' (sheap st)) da = Some l') by now apply set_nth_error_same.
    apply G. { intros b Hb. now apply set_nth_error_other. }
    intros k' y b Ey Hb Eo.
    destruct (rf_shares _ _ Hr k' k y x b a Ey Hb Ek Ha Eo) as [(Dy & _ & Ead & Hsh)|(Sy & Exy & _)];
      [|exfalso; rewrite Exy in Sy; pose proof (sparse_view _ Sy) as V; rewrite (dense_view _ Dd) in V; discriminate].
    rewrite Ev in Ead, Hsh. cbn [data_addr] in Ead. fold da in Ead, Hl.
    pose proof (rf_shows _ _ Hr k' y b Ey Hb) as Y. destruct (sw_values _ _ _ _ Y) as (g & Hgy & Hvy).
    destruct (repr_spot _ _ g Dy Hgy) as (l0 & Hl0 & Hspy). rewrite Ead in Hl0. rewrite Hl in Hl0. injection Hl0 as <-.
    pose proof (sw_all _ _ _ _ Y (dense_not_sparse _ Dy)) as Ally.
    pose proof (sw_all _ _ _ _ X ltac:(rewrite Ev; intros [])) as Allx.
    pose proof (sw_shape _ _ _ _ X) as Sha. rewrite Ev in Sha. cbn [shape_of] in Sha.
    constructor; try apply Y.
    + eexists. split. { eapply dense_relist; try eassumption; rewrite Ead; eassumption. }
      intros i Hi. cbv beta. unfold aread. rewrite Ally.
      replace (a_home b) with (a_home a) by (rewrite (sw_home _ _ _ _ X), (sw_home _ _ _ _ Y); congruence).
      assert (Hi' : in_box i (shape_of (vsto y))) by now rewrite (sw_shape _ _ _ _ Y).
      destruct (existsb (fun j => a_has a j && same_index (a_at a j) (a_at b i)) (all_indices (a_shape a))) eqn:Eb.
      * apply existsb_place in Eb. destruct Eb as (j & Hj & Hja & Ej). rewrite <- Ej, flooded_in by assumption.
        assert (Es : spot (vsto y) i = spot (SDM sh rd rsh rs ro d) j) by (apply Hsh; auto).
        rewrite Es. apply E3. now rewrite Sha.
      * assert (Hn : forall j, in_box j (a_shape a) -> a_has a j = true -> a_at a j <> a_at b i).
        { intros j Hj Hja Ej. assert (T : true = false); [|discriminate]. rewrite <- Eb. symmetry. apply existsb_place. eauto. }
        rewrite flooded_out by exact Hn. destruct (Hspy i Hi') as [Hrg Hgi]. rewrite E4; [|lia|].
        -- rewrite <- Hgi, Hvy by exact Hi. unfold aread. rewrite Ally.
           now replace (a_home b) with (a_home a) by (rewrite (sw_home _ _ _ _ X), (sw_home _ _ _ _ Y); congruence).
        -- intros j Hj Es. rewrite Sha in Hj. apply (Hn j Hj (Allx _)). symmetry. apply Hsh; auto.
    + intros D. exfalso. exact (dense_not_sparse _ Dy D).
Qed.

(** Where C58 applies the two machines agree. *)
Lemma fstep_astep st m o : refines st m -> supported st o -> fstep m o = astep m o.
Proof.
  intros Hr H. destruct o; try reflexivity. destruct H as (x & Ek & Hw & _).
  destruct (rf_arr st m _ x Hr Ek) as (a & Ha & X). cbn [fstep astep]. unfold awith. rewrite Ha.
  rewrite <- (sw_shape _ _ _ _ X). destruct (slice_shape _ _) eqn:E; [|reflexivity].
  pose proof (sw_cls _ _ _ _ X) as C.
  destruct (vsto x), (a_cls a); try contradiction; cbn [floods]; try reflexivity; exfalso;
    cbn [assignable] in Hw; destruct Hw as (_ & _ & _ & Hne); now apply Hne.
Qed.

Lemma supported_too_allowed st o : supported_too st o -> allowed st o.
Proof. intros [H|(k & ix & v & x & -> & _)]; [now apply supported_allowed|exact I]. Qed.

Lemma refines_step_too st m o : separated st -> good st -> refines st m -> supported_too st o ->
  refines (fst (step st o)) (fstep m o) /\ snd (step st o) = Ok tt.
Proof.
  intros Hs Hg Hr [H|(k & ix & v & x & -> & Ek & He)].
  - rewrite (fstep_astep st m o Hr H). now apply refines_step.
  - now apply (flooding_step st m k ix v x).
Qed.

Lemma covered_too_snoc ops o : covered_too (ops ++ [o]) -> covered_too ops /\ supported_too (run ops) o.
Proof.
  intros H. split; [|now apply (H ops o [])]. intros b x a E. apply (H b x (a ++ [o])). rewrite E, <- app_assoc. reflexivity.
Qed.
Lemma covered_too_legal ops : covered_too ops -> legal ops.
Proof. intros H b o a E. now apply supported_too_allowed, (H b o a). Qed.

Lemma run_refines_too ops : covered_too ops -> refines (run ops) (frun ops).
Proof.
  induction ops as [|o ops IH] using rev_ind; intros H.
  - constructor; cbn; [reflexivity| |]; intros k; intros; destruct k; discriminate.
  - apply covered_too_snoc in H. destruct H as [H1 H2]. rewrite run_snoc. unfold frun. rewrite fold_left_app. cbn [fold_left].
    apply refines_step_too; auto; [apply run_separated|now apply run_good, covered_too_legal].
Qed.

(** ** C116 *)

(** After any such program each variable is the array the machine says. *)
Theorem C116_programs : forall ops, covered_too ops ->
  length (vars (run ops)) = length (arrs (frun ops))
  /\ forall k x a, nth_error (vars (run ops)) k = Some x -> nth_error (arrs (frun ops)) k = Some a ->
       is_class (a_cls a) (vsto x) /\ shape_of (vsto x) = a_shape a /\ unspecified_of (vsto x) = a_unspec a
       /\ (forall i, in_box i (a_shape a) -> get_elem (sheap (run ops)) (vsto x) i = Ok (aread (frun ops) a i))
       /\ (sparse_class (a_cls a) = true -> positive (a_shape a) ->
             forall i, in_box i (a_shape a) -> (stored (sheap (run ops)) (vsto x) i <-> a_has a i = true)).
Proof.
  intros ops H. pose proof (run_refines_too ops H) as R. split; [apply R|]. intros k x a Hk Ha.
  pose proof (rf_shows _ _ R k x a Hk Ha) as X. split; [apply X|]. split; [apply X|]. split; [apply X|]. split.
  - intros i Hi. destruct (sw_values _ _ _ _ X) as (f & Hf & Hv). rewrite <- (Hv i Hi). apply repr_get; [exact Hf|].
    now rewrite (sw_shape _ _ _ _ X).
  - intros Hc Hp i Hi.
    assert (Sx : is_sparse (vsto x)) by (pose proof (sw_cls _ _ _ _ X) as C; destruct (a_cls a), (vsto x); try discriminate; contradiction || exact I).
    destruct (sw_stored _ _ _ _ X Sx) as (E & HE & Hin). rewrite <- (Hin i Hi). apply stored_sparse; [exact HE|].
    now rewrite (sw_shape _ _ _ _ X).
Qed.
Print Assumptions C116_programs.

Theorem C116_no_exceptions : forall ops o, covered_too ops -> supported_too (run ops) o -> snd (step (run ops) o) = Ok tt.
Proof.
  intros ops o H Ho. apply (refines_step_too (run ops) (frun ops) o); auto; [apply run_separated| |now apply run_refines_too].
  now apply run_good, covered_too_legal.
Qed.
Print Assumptions C116_no_exceptions.

(** In the API's terms: after [x[i] = v], for one element of a sparse or DM
    array, at any point of any such program, every element of every array is
    [v] if it shared its place with a stored element of [x], and what it was
    otherwise; arrays of another origin are unchanged. *)
Theorem C116_reach : forall ops k ix v x, covered_too ops -> nth_error (vars (run ops)) k = Some x -> element_of (vsto x) ix ->
  let after := run (ops ++ [Assign k ix (OList v)]) in
  vars after = vars (run ops)
  /\ (forall i, in_box i (shape_of (vsto x)) -> get_elem (sheap (run ops)) (vsto x) i <> Ok (unspecified_of (vsto x)) ->
        get_elem (sheap after) (vsto x) i = Ok v)
  /\ (forall y i, In y (vars (run ops)) -> in_box i (shape_of (vsto y)) ->
        get_elem (sheap after) (vsto y) i = Ok v
        \/ get_elem (sheap after) (vsto y) i = get_elem (sheap (run ops)) (vsto y) i)
  /\ (forall y i, In y (vars (run ops)) -> in_box i (shape_of (vsto y)) -> origin y <> origin x ->
        get_elem (sheap after) (vsto y) i = get_elem (sheap (run ops)) (vsto y) i).
Proof.
  intros ops k ix v x Hc Ek He after. pose proof (run_refines_too ops Hc) as R.
  destruct (flooding_step (run ops) (frun ops) k ix v x (run_separated ops) R Ek He) as [R' _].
  rewrite <- run_snoc in R'. fold after in R'.
  assert (Ev : vars after = vars (run ops)).
  { unfold after. rewrite run_snoc. cbn [step]. unfold with_var. rewrite Ek.
    now destruct (setitem (sheap (run ops)) (vsto x) ix (SrcSeq v)). }
  destruct (rf_arr _ _ k x R Ek) as (a & Ha & X).
  assert (Ef : fstep (frun ops) (Assign k ix (OList v)) = flooded (frun ops) a v).
  { destruct He as (Hcl & _ & _ & Hnil). cbn [fstep]. unfold awith. rewrite Ha, <- (sw_shape _ _ _ _ X), Hnil.
    pose proof (sw_cls _ _ _ _ X) as C. cbn [avalue]. unfold list_value. cbn [nested_at].
    destruct (vsto x), (a_cls a); try contradiction; cbn [floods]; destruct Hcl; try contradiction; reflexivity. }
  rewrite Ef in R'.
  assert (V : forall k' y b, nth_error (vars (run ops)) k' = Some y -> nth_error (arrs (frun ops)) k' = Some b ->
    forall i, in_box i (shape_of (vsto y)) -> get_elem (sheap (run ops)) (vsto y) i = Ok (aread (frun ops) b i)
      /\ get_elem (sheap after) (vsto y) i = Ok (aread (flooded (frun ops) a v) b i)).
  { intros k' y b Ey Eb i Hi. pose proof (rf_shows _ _ R k' y b Ey Eb) as Y.
    pose proof (rf_shows _ _ R' k' y b ltac:(rewrite Ev; exact Ey) Eb) as Y'.
    pose proof (sw_shape _ _ _ _ Y) as Sy.
    destruct (sw_values _ _ _ _ Y) as (f & Hf & Hv), (sw_values _ _ _ _ Y') as (f' & Hf' & Hv').
    rewrite (repr_get _ _ f i Hf Hi), (repr_get _ _ f' i Hf' Hi). rewrite Hv, Hv' by (rewrite <- Sy; exact Hi). auto. }
  split; [exact Ev|]. split; [|split].
  - intros i Hi Hne. destruct (V k x a Ek Ha i Hi) as [V1 V2]. rewrite V2. rewrite V1 in Hne. unfold aread in *.
    destruct (a_has a i) eqn:Hh; [|exfalso; apply Hne; now rewrite (sw_unspec _ _ _ _ X)].
    rewrite flooded_in; auto. now rewrite <- (sw_shape _ _ _ _ X).
  - intros y i Hin Hi. apply In_nth_error in Hin. destruct Hin as [k' Ey]. destruct (rf_arr _ _ k' y R Ey) as (b & Hb & Y).
    destruct (V k' y b Ey Hb i Hi) as [V1 V2]. rewrite V1, V2. unfold aread. destruct (a_has b i); [|now right].
    unfold flooded. cbn [content]. destruct (Nat.eqb _ _ && _); auto.
  - intros y i Hin Hi Ho. apply In_nth_error in Hin. destruct Hin as [k' Ey]. destruct (rf_arr _ _ k' y R Ey) as (b & Hb & Y).
    destruct (V k' y b Ey Hb i Hi) as [V1 V2]. rewrite V1, V2. unfold aread. rewrite flooded_other; [reflexivity|].
    rewrite (sw_home _ _ _ _ X), (sw_home _ _ _ _ Y). exact Ho.
Qed.
Print Assumptions C116_reach.

(** How a DM array is mapped still makes no difference. *)
Theorem C116_remapped : forall ops ops', covered_too ops -> covered_too ops' -> Forall2 remapped ops ops' ->
  length (vars (run ops)) = length (vars (run ops'))
  /\ forall k x y, nth_error (vars (run ops)) k = Some x -> nth_error (vars (run ops')) k = Some y ->
       shape_of (vsto x) = shape_of (vsto y) /\ unspecified_of (vsto x) = unspecified_of (vsto y)
       /\ forall i, in_box i (shape_of (vsto x)) ->
            get_elem (sheap (run ops)) (vsto x) i = get_elem (sheap (run ops')) (vsto y) i.
Proof.
  intros ops ops' H H' R. destruct (C116_programs ops H) as [L P], (C116_programs ops' H') as [L' P'].
  assert (E : frun ops = frun ops').
  { unfold frun. generalize (Machine (fun _ _ => VNone) []) as m. clear - R. intros m. revert m.
    induction R as [|o o' l l' Ho R IH]; intros m; [reflexivity|]. cbn [fold_left].
    replace (fstep m o) with (fstep m o'); [apply IH|].
    destruct Ho as [o|v u d p c d' p' c' E|k u d p c d' p' c' E]; cbn [fstep astep]; rewrite ?E; reflexivity. }
  rewrite <- E in *. split; [congruence|]. intros k x y Hx Hy.
  destruct (nth_error (arrs (frun ops)) k) as [a|] eqn:Ha.
  - destruct (P k x a Hx Ha) as (_ & P1 & P2 & P3 & _), (P' k y a Hy Ha) as (_ & Q1 & Q2 & Q3 & _).
    split; [congruence|]. split; [congruence|]. intros i Hi. rewrite P1 in Hi. rewrite P3, Q3 by exact Hi. reflexivity.
  - exfalso. apply nth_error_None in Ha. rewrite <- L in Ha.
    assert (k < length (vars (run ops)))%nat by (apply nth_error_Some; congruence). lia.
Qed.
Print Assumptions C116_remapped.

Lemma covered_too_add ops o : covered_too ops -> supported_too (run ops) o -> covered_too (ops ++ [o]).
Proof.
  intros H Ha b x a E. destruct a as [|y a].
  - apply app_inj_tail in E. destruct E as [-> ->]. exact Ha.
  - destruct (exists_last (l := y :: a)) as (a' & z & Ea); [discriminate|]. rewrite Ea in E.
    change (x :: a' ++ [z]) with ((x :: a') ++ [z]) in E. rewrite app_assoc in E. apply app_inj_tail in E.
    destruct E as [-> _]. now apply (H b x a').
Qed.

(** The program of C58 (x2 is a CSR array with no value stored at [0, 1], x5 a DM
    array and x6 a window on its last row), and then x2[1, 1] = 7; x6[0, 0] = 0:
    everything stored in x2 becomes 7, the last row of x5 becomes 0. *)
Definition program_too (d p : option (list Z)) : list op :=
  program d p ++ [Assign 2 (XTuple [IInt 1; IInt 1]) (OList (VInt 7))] ++ [Assign 6 (XTuple [IInt 0; IInt 0]) (OList (VInt 0))].
Example C116_case : covered_too (program_too None None) /\ covered_too (program_too (Some [1; 0]) (Some [1]))
  /\ Forall2 remapped (program_too None None) (program_too (Some [1; 0]) (Some [1]))
  /\ reads_of (frun (program_too None None))
     = [[VInt 8; VInt 9; VInt 3; VInt 4]; [VInt 9; VInt 8; VInt 4; VInt 3]; [VInt 7; VInt 2; VInt 7; VInt 7];
        [VInt 3; VInt 4]; [VInt 3; VInt 2]; [VInt 8; VInt 9; VInt 0; VInt 0]; [VInt 0; VInt 0]].
Proof.
  assert (P : positive [2; 2]) by (repeat constructor; lia).
  assert (P1 : positive [1; 2]) by (repeat constructor; lia).
  split; [|split; [|split]].
  - unfold program_too. rewrite app_assoc. apply covered_too_add; [apply covered_too_add|].
    + apply covered_covered_too, program_covered. now left.
    + right. eexists _, _, _, _. split; [reflexivity|]. split; [vm_compute; reflexivity|].
      split; [left; exact I|]. split; [exact P|]. split; [index_ok|reflexivity].
    + right. eexists _, _, _, _. split; [reflexivity|]. split; [vm_compute; reflexivity|].
      split; [right; exact I|]. split; [exact P1|]. split; [index_ok|reflexivity].
  - unfold program_too. rewrite app_assoc. apply covered_too_add; [apply covered_too_add|].
    + apply covered_covered_too, program_covered. now right.
    + right. eexists _, _, _, _. split; [reflexivity|]. split; [vm_compute; reflexivity|].
      split; [left; exact I|]. split; [exact P|]. split; [index_ok|reflexivity].
    + right. eexists _, _, _, _. split; [reflexivity|]. split; [vm_compute; reflexivity|].
      split; [right; exact I|]. split; [exact P1|]. split; [index_ok|reflexivity].
  - unfold program_too, program. cbn [app]. repeat constructor.
  - vm_compute. reflexivity.
Qed.

(** solve_index and diophantine: soundness, totality, exactness on slices. *)
From Verif Require Import Py SliceTools Basics Spec SliceFacts IndexFacts.
From Verif Require Import ExtgcdFacts DioFacts ElimFacts MatrixFacts SolverFacts CloseFacts.

(** * Soundness, for all strides *)
Lemma init_diophantine_inv a0 a1 r shape sd :
  init_diophantine (a0 :: a1 :: r) shape = Ok sd ->
  good a0 (a1 :: r) /\ sd_d sd = gall a0 (a1 :: r) /\ length (sd_zs sd) = length (a1 :: r)
  /\ Forall (fun z => length z = S (length (a1 :: r))) (sd_zs sd)
  /\ length (sd_z0 sd) = S (length (a1 :: r))
  /\ forall k t, length t = length (a1 :: r) ->
       vcomb (zscale k (sd_z0 sd)) t (sd_zs sd) = sol a0 (a1 :: r) k t.
Proof.
  intros H. cbn [init_diophantine] in H.
  destruct (init_dio_rec a0 (a1 :: r)) as [[e|]|] eqn:He; cbn [bind] in H; try discriminate.
  pose proof (init_dio_rec_inv _ _ _ He) as Hg.
  destruct (init_dio_rec_ok a0 (a1 :: r) ltac:(congruence) Hg)
    as (e' & He' & Hd & Hz0 & Hds & Hrows & Hval).
  rewrite He in He'. injection He' as <-.
  destruct (match shape with None => Ok tt | Some sh => _ end) as [u|]; cbn [bind] in H;
    [|discriminate].
  destruct (elim_steps _ _) as [A|]; cbn [bind] in H; [|discriminate].
  injection H as <-. cbn [sd_d sd_zs sd_z0].
  replace (length (a0 :: a1 :: r) - 1)%nat with (length (a1 :: r)) by (cbn [length]; lia).
  split; [exact Hg|]. split; [exact Hd|]. split; [apply transpose_length|].
  split; [rewrite <- Hds; apply transpose_rows|]. split; [exact Hz0|].
  intros k t Ht. change (S (length r)) with (length (a1 :: r)).
  apply (vcomb_sol a0 (a1 :: r)); auto. congruence.
Qed.

Lemma solve_index_sound pos shape strides j :
  strides <> [] -> length shape = length strides ->
  solve_index pos shape strides = Ok (Some j) ->
  in_box j shape /\ zdot j strides = pos.
Proof.
  intros Hne Hl H. unfold solve_index in H.
  destruct (init_diophantine strides (Some shape)) as [sd|] eqn:E; cbn [bind] in H; [|discriminate].
  unfold solve_index_data in H.
  destruct (assert_ _) as [u|]; cbn [bind] in H; [|discriminate].
  unfold pymod in H. destruct (sd_d sd =? 0) eqn:Ed; cbn [bind] in H; [discriminate|].
  destruct (pos mod sd_d sd =? 0) eqn:Em; cbn [negb] in H; [|discriminate].
  unfold pydiv in H. rewrite Ed in H. cbn [bind] in H.
  apply try_dts_sound in H. destruct H as (t & Ht & Ej & Hin).
  assert (Epos : pos = sd_d sd * (pos / sd_d sd)).
  { pose proof (Z.div_mod pos (sd_d sd) ltac:(lia)). lia. }
  destruct strides as [|a0 [|a1 r]]; [congruence| |].
  - cbn [init_diophantine] in E. injection E as <-. cbn [sd_zs sd_z0 sd_d length] in *.
    destruct t; [|discriminate]. cbn [vcomb zscale map] in Ej. subst j.
    split; [now apply in_shape_true|]. cbn [zdot]. lia.
  - destruct (init_diophantine_inv _ _ _ _ _ E) as (Hg & Hd & Hzl & Hzr & Hz0 & Hsol).
    rewrite Hsol in Ej by lia. subst j.
    split.
    + apply in_shape_true in Hin; [exact Hin|]. rewrite sol_length. cbn [length] in *. lia.
    + rewrite zdot_comm, sol_dot by assumption. rewrite <- Hd. lia.
Qed.

(** * Totality, for nonzero strides *)
Lemma solve_index_total pos shape strides :
  strides <> [] -> Forall (fun a => a <> 0) strides -> length shape = length strides ->
  exists r, solve_index pos shape strides = Ok r.
Proof.
  intros Hne Ha Hl. destruct strides as [|a0 [|a1 r]]; [congruence| |].
  - destruct shape as [|m [|]]; try discriminate. unfold solve_index. cbn [init_diophantine bind].
    unfold solve_index_data. cbn [sd_s assert_ bind sd_d].
    unfold pymod, pydiv. inversion Ha; subst. replace (a0 =? 0) with false by lia. cbn [bind].
    destruct (negb _); [eauto|]. cbn [map cart sd_zs try_dts accum sd_z0 bind in_shape axpy map2].
    destruct ((0 <=? _) && _); cbn [bind in_shape]; eauto.
  - destruct (init_diophantine_ok a0 (a1 :: r) shape Ha ltac:(congruence))
      as (sd & s & Esd & [Hd Hs Hz0 Hzs Hzr HD Hb Hsl Hpos Hsol Hver]).
    { cbn [length] in *. lia. }
    unfold solve_index. rewrite Esd. cbn [bind]. unfold solve_index_data. rewrite Hs.
    replace (match shape with [] => true | _ => true end) with true by (destruct shape; reflexivity).
    cbn [assert_ bind]. unfold pymod, pydiv. rewrite Hd.
    assert (Ha0 : a0 <> 0) by (now inversion Ha).
    destruct (good_nonzero a0 (a1 :: r) Ha0) as [Hg Hgall].
    replace (gall a0 (a1 :: r) =? 0) with false by lia. cbn [bind].
    destruct (negb _); [eauto|].
    destruct (try_dts_complete (pos / gall a0 (a1 :: r)) sd s shape
                (cart (map (fun _ => 2) (sd_zs sd)))) as (x & Er & _); auto; try lia.
    { cbn [length] in *. lia. }
    { apply Forall_forall. intros dt Hdt. apply In_cart in Hdt. apply in_box_length in Hdt.
      now rewrite map_length in Hdt. }
    eauto.
Qed.

(** * Exactness on slices *)

(** Shape and strides of a (repeatedly) sliced contiguous array: each stride is
    B_i * s_i where B_i is the block size of the axis in the contiguous array,
    n_i its length, and m_i items of step s_i fit into the axis. *)
Inductive sliced : Z -> list Z -> list Z -> Prop :=
| sliced_nil B : sliced B [] []
| sliced_cons B B1 n s m sh st :
    0 < B1 -> s <> 0 -> 0 <= m -> 0 < n -> (m - 1) * Z.abs s <= n - 1 -> (n * B1 | B) ->
    sliced B1 sh st -> sliced B (m :: sh) (B1 * s :: st).

Lemma sliced_length B sh st : sliced B sh st -> length sh = length st.
Proof. intros H. induction H; cbn; congruence. Qed.

Lemma sliced_nonzero B sh st : sliced B sh st -> Forall (fun a => a <> 0) st.
Proof. intros H. induction H; constructor; [nia|assumption]. Qed.

Lemma sliced_gap B sh st x : sliced B sh st -> in_box x sh -> nested B st (upper_gap sh x).
Proof.
  intros H. revert x. induction H as [B|B B1 n s m sh st HB1 Hs Hm Hn Hms Hd H IH]; intros x Hx.
  - inversion Hx; subst. constructor.
  - inversion Hx as [|v ? xs ? Hv Hxs]; subst. unfold upper_gap in *. cbn [map2].
    apply nested_cons with (n := n); auto. rewrite Z.abs_eq by lia. nia.
Qed.

Lemma sliced_diff B sh st x y : sliced B sh st -> in_box x sh -> in_box y sh ->
  nested B st (map2 Z.sub x y).
Proof.
  intros H. revert x y. induction H as [B|B B1 n s m sh st HB1 Hs Hm Hn Hms Hd H IH]; intros x y Hx Hy.
  - inversion Hx; inversion Hy; subst. constructor.
  - inversion Hx as [|v ? xs ? Hv Hxs]; subst. inversion Hy as [|w ? ys ? Hw Hys]; subst.
    cbn [map2]. apply nested_cons with (n := n); auto.
    assert (Z.abs (v - w) <= m - 1) by lia. nia.
Qed.

Lemma zdot_sub st x y : length x = length y ->
  zdot st (map2 Z.sub x y) = zdot st x - zdot st y.
Proof.
  revert x y. induction st as [|a st IH]; intros x y Hl; [reflexivity|].
  destruct x as [|u x]; destruct y as [|v y]; try discriminate; [reflexivity|].
  cbn in Hl. cbn [map2 zdot]. rewrite IH by lia. lia.
Qed.

Lemma sub_zero x y : length x = length y ->
  map2 Z.sub x y = map (fun _ => 0) (map2 Z.sub x y) -> x = y.
Proof.
  revert y. induction x as [|u x IH]; intros [|v y] Hl H; try discriminate; [reflexivity|].
  cbn in Hl. cbn [map2 map] in H. injection H as H1 H2. f_equal; [lia|]. apply IH; auto.
Qed.

Lemma sliced_unique B sh st x y : sliced B sh st -> in_box x sh -> in_box y sh ->
  zdot x st = zdot y st -> x = y.
Proof.
  intros H Hx Hy E.
  assert (Hl : length x = length y) by (rewrite (in_box_length _ _ Hx), (in_box_length _ _ Hy); auto).
  apply sub_zero; [assumption|].
  apply (nested_zero B st).
  - now apply (sliced_diff B sh).
  - rewrite zdot_sub by assumption. rewrite !(zdot_comm st). lia.
Qed.

Lemma solve_sliced_complete B sh st x : sliced B sh st -> sh <> [] -> in_box x sh ->
  solve_index (zdot x st) sh st = Ok (Some x).
Proof.
  intros H Hne Hx.
  pose proof (sliced_length _ _ _ H) as Hlen.
  pose proof (sliced_nonzero _ _ _ H) as Hnz.
  assert (Hst : st <> []) by (destruct sh; destruct st; try discriminate; congruence).
  assert (Hr : exists r, solve_index (zdot x st) sh st = Ok (Some r)).
  { inversion H as [|B' B1 n s m sh' st' HB1 Hs Hm Hn Hms Hd Hs']; subst; [congruence|].
    destruct st' as [|a1 r].
    - inversion Hs'; subst. inversion Hx as [|v ? xs ? Hv Hxs]; subst. inversion Hxs; subst.
      exists [v]. unfold solve_index. cbn [init_diophantine bind].
      unfold solve_index_data. cbn [sd_s assert_ bind sd_d zdot].
      unfold pymod, pydiv. assert (Hd0 : B1 * s <> 0) by nia.
      replace (B1 * s =? 0) with false by lia. cbn [bind].
      replace (v * (B1 * s) + 0) with (v * (B1 * s)) by lia.
      rewrite Z.mod_mul, Z.div_mul by assumption. cbn [Z.eqb negb].
      cbn [map cart sd_zs try_dts accum sd_z0 bind in_shape axpy map2].
      replace (v * 1 + 0) with v by lia.
      replace ((0 <=? v) && (v <? m)) with true by lia. reflexivity.
    - rewrite zdot_comm. apply solve_close; auto; [congruence|].
      pose proof (sliced_gap _ _ _ _ H Hx) as Hgap.
      inversion Hx as [|v ? xs ? Hv Hxs]; subst.
      unfold upper_gap in *. cbn [map2 tl].
      apply nested_close; auto.
      apply (sliced_gap B1 sh' (a1 :: r) xs Hs' Hxs). }
  destruct Hr as [r Er].
  destruct (solve_index_sound _ _ _ _ Hst Hlen Er) as [Hbox Hdot].
  rewrite Er. do 2 f_equal. now apply (sliced_unique B sh st).
Qed.

Lemma solve_sliced B sh st pos : sliced B sh st -> sh <> [] ->
  exists r, solve_index pos sh st = Ok r
    /\ (forall j, r = Some j <-> in_box j sh /\ zdot j st = pos).
Proof.
  intros H Hne.
  pose proof (sliced_length _ _ _ H) as Hlen.
  assert (Hst : st <> []) by (destruct sh; destruct st; try discriminate; congruence).
  destruct (solve_index_total pos sh st Hst (sliced_nonzero _ _ _ H) Hlen) as [r Er].
  exists r. split; [exact Er|]. intros j. split.
  - intros ->. now apply solve_index_sound.
  - intros [Hj <-]. rewrite (solve_sliced_complete B) in Er by assumption. now injection Er.
Qed.

Lemma sliced_weaken B B' sh st : (B | B') -> sliced B sh st -> sliced B' sh st.
Proof.
  intros Hd H. inversion H; subst; [constructor|].
  apply sliced_cons with (n := n); auto. eapply Z.divide_trans; eassumption.
Qed.

Lemma product_pos sh : positive sh -> 0 < product sh.
Proof. intros H. induction H; cbn [product]; nia. Qed.

Lemma sliced_contiguous sh : positive sh -> sliced (product sh) sh (make_strides sh).
Proof.
  intros H. induction H as [|n sh Hn H IH]; cbn [product make_strides]; [constructor|].
  rewrite <- (Z.mul_1_r (product sh)) at 2.
  apply sliced_cons with (n := n); auto; try lia.
  - now apply product_pos.
  - apply Z.divide_refl.
Qed.

Lemma normal_step_fits r n : 0 < n -> normal_slice r n -> (r_count r - 1) * Z.abs (r_step r) <= n - 1.
Proof.
  intros Hn H. destruct (Z.le_gt_cases (r_count r) 0) as [Hc|Hc]; [nia|].
  pose proof (normal_slice_item_range r n 0 Hn H ltac:(lia)).
  pose proof (normal_slice_item_range r n (r_count r - 1) Hn H ltac:(lia)) as H1.
  set (a := r_start r mod n) in *. set (c := r_count r - 1) in *.
  assert (Z.abs (c * r_step r) <= n - 1) by lia.
  rewrite Z.abs_mul in H2. rewrite (Z.abs_eq c) in H2 by lia. exact H2.
Qed.

Lemma sliced_slice B sh st ix : sliced B sh st -> positive sh -> normal_index ix sh ->
  sliced B (n_shape ix sh) (n_strides ix st).
Proof.
  intros H. revert ix. induction H as [B|B B1 n s m sh st HB1 Hs Hm Hn Hms Hd H IH];
    intros ix Hp Hix.
  - inversion Hix; subst. constructor.
  - inversion Hp as [|? ? Hm0 Hp']; subst. inversion Hix as [|i ? ix' ? Hi Hix']; subst.
    specialize (IH ix' Hp' Hix').
    destruct i as [z|r|]; cbn [n_shape n_strides normal_item] in *.
    + apply (sliced_weaken B1); [|assumption].
      eapply Z.divide_trans; [|exact Hd]. apply Z.divide_factor_r.
    + rewrite <- Z.mul_assoc. apply sliced_cons with (n := n); auto.
      * apply normal_slice_step in Hi. nia.
      * now apply r_count_nonneg in Hi.
      * pose proof (normal_step_fits r m Hm0 Hi). rewrite Z.abs_mul.
        assert ((r_count r - 1) * Z.abs (r_step r) * Z.abs s <= (m - 1) * Z.abs s)
          by (apply Z.mul_le_mono_nonneg_r; lia). lia.
    + apply sliced_cons with (n := n); auto.
Qed.

(** * Contiguous strides *)
Lemma c_strides_make sh : c_strides sh = make_strides sh.
Proof.
  induction sh as [|n sh IH]; [reflexivity|]. cbn [c_strides make_strides]. now rewrite IH.
Qed.

Lemma n_elements_product sh : n_elements sh = product sh.
Proof. induction sh as [|m sh IH]; [reflexivity|]. cbn [product]. rewrite <- IH. reflexivity. Qed.

Lemma contiguous_range sh i : in_box i sh -> 0 <= zdot i (make_strides sh) < product sh.
Proof.
  intros H. induction H as [|x n i sh Hx H IH]; cbn [make_strides zdot product]; [lia|]. nia.
Qed.

(** * diophantine *)
Lemma init_diophantine_none_ok a0 a1 r : Forall (fun a => a <> 0) (a0 :: a1 :: r) ->
  exists sd, init_diophantine (a0 :: a1 :: r) None = Ok sd.
Proof.
  intros Ha. assert (Ha0 : a0 <> 0) by (now inversion Ha).
  destruct (good_nonzero a0 (a1 :: r) Ha0) as [Hg Hgall].
  destruct (init_dio_rec_ok a0 (a1 :: r) ltac:(congruence) Hg)
    as (e & He & Hd & Hz0 & Hds & Hrows & Hval).
  destruct (elim_matrix_ok a0 (a1 :: r) e None Ha ltac:(congruence) He) as (A' & EA & _).
  cbn [init_diophantine]. rewrite He. cbn [bind].
  change (length (a0 :: a1 :: r)) with (S (length (a1 :: r))).
  replace (S (length (a1 :: r)) - 1)%nat with (length (a1 :: r)) by lia.
  rewrite EA. cbn [bind]. eauto.
Qed.

(** x0 + sum_j t_j * zs_j, coordinate by coordinate *)
Lemma vcomb_pointwise x t zs : Forall (fun z => length z = length x) zs ->
  vcomb x t zs
  = map (fun i => nth i x 0 + zdot t (map (fun z => nth i z 0) zs)) (seq 0 (length x)).
Proof.
  intros H. apply nth_ext0.
  - rewrite vcomb_length by assumption. now rewrite map_length, seq_length.
  - rewrite vcomb_length by assumption. intros i Hi.
    rewrite vcomb_nth by assumption.
    now rewrite (nth_map_seq (fun i => nth i x 0 + zdot t (map (fun z => nth i z 0) zs))).
Qed.

Lemma diophantine_sound a c x0 zs t : a <> [] -> diophantine a c = Ok (Some (x0, zs)) ->
  length t = length zs ->
  length x0 = length a /\ Forall (fun z => length z = length a) zs
  /\ length zs = (length a - 1)%nat
  /\ zdot a (map (fun i => nth i x0 0 + zdot t (map (fun z => nth i z 0) zs)) (seq 0 (length a))) = c.
Proof.
  intros Hne H Ht. unfold diophantine in H.
  destruct (init_diophantine a None) as [sd|] eqn:E; cbn [bind] in H; [|discriminate].
  unfold pymod in H. destruct (sd_d sd =? 0) eqn:Ed; cbn [bind] in H; [discriminate|].
  destruct (c mod sd_d sd =? 0) eqn:Em; cbn [negb] in H; [|discriminate].
  unfold pydiv in H. rewrite Ed in H. cbn [bind] in H. injection H as <- <-.
  assert (Ec : c = sd_d sd * (c / sd_d sd)).
  { pose proof (Z.div_mod c (sd_d sd) ltac:(lia)). lia. }
  destruct a as [|a0 [|a1 r]]; [congruence| |].
  - cbn [init_diophantine] in E. injection E as <-. cbn [sd_zs sd_z0 sd_d length] in *.
    destruct t; [|discriminate]. cbn [zscale map seq nth zdot length].
    repeat split; auto. lia.
  - destruct (init_diophantine_inv _ _ _ _ _ E) as (Hg & Hd & Hzl & Hzr & Hz0 & Hsol).
    set (k := c / sd_d sd) in *.
    assert (Hl : length (zscale k (sd_z0 sd)) = length (a0 :: a1 :: r)).
    { rewrite zscale_length, Hz0. reflexivity. }
    split; [exact Hl|]. split; [exact Hzr|]. split; [rewrite Hzl; cbn [length]; lia|].
    rewrite <- Hl. rewrite <- vcomb_pointwise by (rewrite Hl; exact Hzr).
    rewrite Hsol by lia. rewrite sol_dot by assumption. rewrite <- Hd. lia.
Qed.

Lemma diophantine_complete a c : a <> [] -> Forall (fun v => v <> 0) a ->
  exists r, diophantine a c = Ok r
    /\ match r with
       | None => forall x, length x = length a -> zdot a x <> c
       | Some (x0, zs) =>
           forall x, length x = length a -> zdot a x = c ->
           exists! t, length t = length zs
             /\ x = map (fun i => nth i x0 0 + zdot t (map (fun z => nth i z 0) zs))
                        (seq 0 (length a))
       end.
Proof.
  intros Hne Ha. destruct a as [|a0 [|a1 r]]; [congruence| |].
  - unfold diophantine. cbn [init_diophantine bind sd_d]. unfold pymod, pydiv.
    assert (a0 <> 0) by now inversion Ha.
    replace (a0 =? 0) with false by lia. cbn [bind].
    destruct (c mod a0 =? 0) eqn:Em; cbn [negb].
    + eexists. split; [reflexivity|]. cbn [sd_zs sd_z0 zscale map length seq nth].
      intros x Hx Hd. destruct x as [|u [|]]; try discriminate. cbn [zdot] in Hd.
      exists []. split.
      * split; [reflexivity|]. cbn [zdot]. f_equal.
        replace c with (u * a0) by lia. rewrite Z.div_mul by assumption. lia.
      * intros t [Ht _]. now destruct t.
    + eexists. split; [reflexivity|]. intros x Hx Hd.
      destruct x as [|u [|]]; try discriminate. cbn [zdot] in Hd.
      replace c with (u * a0) in Em by lia. rewrite Z.mod_mul in Em by assumption. lia.
  - destruct (init_diophantine_none_ok a0 a1 r Ha) as [sd E].
    destruct (init_diophantine_inv _ _ _ _ _ E) as (Hg & Hd & Hzl & Hzr & Hz0 & Hsol).
    unfold diophantine. rewrite E. cbn [bind]. unfold pymod, pydiv. rewrite Hd.
    assert (Ha0 : a0 <> 0) by now inversion Ha.
    destruct (good_nonzero a0 (a1 :: r) Ha0) as [_ Hgall].
    set (g := gall a0 (a1 :: r)) in *.
    replace (g =? 0) with false by lia. cbn [bind].
    assert (Hdv : forall x, (g | zdot (a0 :: a1 :: r) x)) by (intros x; apply zdot_divide, gall_divides).
    destruct (c mod g =? 0) eqn:Em; cbn [negb].
    + eexists. split; [reflexivity|]. cbn beta iota. intros x Hx Hdot.
      set (k := c / g).
      assert (Ec : c = g * k).
      { pose proof (Z.div_mod c g ltac:(lia)). unfold k. lia. }
      assert (Hl : length (zscale k (sd_z0 sd)) = length (a0 :: a1 :: r)).
      { rewrite zscale_length, Hz0. reflexivity. }
      rewrite <- Hl.
      exists (par a0 (a1 :: r) x). split.
      * split; [rewrite par_length; lia|].
        rewrite <- vcomb_pointwise by (rewrite Hl; exact Hzr).
        rewrite Hsol by apply par_length. symmetry. apply sol_par; auto. fold g. lia.
      * intros t [Ht Ex]. rewrite <- vcomb_pointwise in Ex by (rewrite Hl; exact Hzr).
        rewrite Hsol in Ex by lia. rewrite Ex. apply par_sol; auto. lia.
    + eexists. split; [reflexivity|]. intros x Hx Hdot. specialize (Hdv x).
      rewrite Hdot in Hdv. apply Z.mod_divide in Hdv; lia.
Qed.

(** The 0/1 search of solve_index is sufficient for the strides of slices of
    contiguous arrays. *)
From Verif Require Import Py SliceTools Basics Spec SliceFacts IndexFacts.
From Verif Require Import ExtgcdFacts DioFacts ElimFacts MatrixFacts SolverFacts.

(** * Distance between a solution and the vertex *)

(** [e] is the vector of distances of the solution to the upper bounds. *)
Fixpoint close (a0 : Z) (rest e : list Z) : Prop :=
  match rest, e with
  | a1 :: r, e1 :: e' =>
      let '(d, x0, y0) := extgcd a0 a1 in
      Z.abs (d * e1 + y0 * zdot r e') < Z.abs a0 /\ close d r e'
  | _, _ => True
  end.

Lemma par_scale a0 rest c x : length x = S (length rest) ->
  par a0 rest (zscale c x) = zscale c (par a0 rest x).
Proof.
  revert a0 x. induction rest as [|a1 r IH]; intros a0 x Hx; [reflexivity|].
  destruct x as [|u [|v x]]; cbn [length] in Hx; try lia.
  cbn [par zscale map]. destruct (extgcd a0 a1) as [[d x0] y0]. cbn [hd tl map].
  change (map (fun z => c * z)) with (zscale c).
  rewrite <- IH by (cbn [length]; lia). cbn [zscale map]. f_equal; [ring|].
  do 2 f_equal. ring.
Qed.

(** the difference vector of DESIGN.md *)
Definition dvec (a0 : Z) (rest e : list Z) : list Z := zdot rest e :: zscale (- a0) e.

Lemma par_dvec a0 a1 r e1 e' d x0 y0 : extgcd a0 a1 = (d, x0, y0) -> d <> 0 ->
  length e' = length r ->
  par a0 (a1 :: r) (dvec a0 (a1 :: r) (e1 :: e'))
  = - (d * e1 + y0 * zdot r e') :: zscale (a0 / d) (par d r (dvec d r e')).
Proof.
  intros E Hd Hl. destruct (eg_quotients _ _ _ _ _ E Hd) as (E0 & E1 & _).
  destruct (extgcd_spec _ _ _ _ _ E) as (HB & _).
  cbn [par]. rewrite E. unfold dvec. cbn [zscale map hd tl zdot].
  apply f_equal2.
  - rewrite <- HB. ring.
  - rewrite <- par_scale by (cbn [length]; rewrite zscale_length; lia).
    f_equal. cbn [zscale map]. apply f_equal2.
    + replace (a0 / d * (a1 * e1 + zdot r e') + a1 / d * (- a0 * e1))
        with (a0 / d * zdot r e' + e1 * ((a0 / d) * a1 - (a1 / d) * a0)) by ring.
      rewrite E1 at 1. rewrite E0 at 3. ring.
    + unfold zscale. rewrite map_map. apply map_ext. intros z. rewrite E0 at 1. ring.
Qed.

Lemma close_par a0 rest e : a0 <> 0 -> length e = length rest -> close a0 rest e ->
  forall i, (i < length rest)%nat ->
  Z.abs (nth i (par a0 rest (dvec a0 rest e)) 0) < Z.abs a0.
Proof.
  revert a0 e. induction rest as [|a1 r IH]; intros a0 e Ha Hl Hc i Hi; [cbn in Hi; lia|].
  destruct e as [|e1 e']; [discriminate|]. cbn [length] in *.
  destruct (extgcd a0 a1) as [[d x0] y0] eqn:E. cbn [close] in Hc. rewrite E in Hc.
  destruct Hc as [H1 Hc].
  assert (Hd : d <> 0).
  { pose proof (eg_nonzero a0 a1 Ha) as H. unfold eg in H. rewrite E in H. exact H. }
  rewrite (par_dvec a0 a1 r e1 e' d x0 y0 E Hd) by lia.
  destruct i as [|i]; cbn [nth]; [lia|].
  unfold zscale.
  rewrite nth_indep with (d' := a0 / d * 0) by (rewrite map_length, par_length; lia).
  rewrite (map_nth (fun z => a0 / d * z)).
  specialize (IH d e' Hd ltac:(lia) Hc i ltac:(lia)).
  destruct (eg_quotients _ _ _ _ _ E Hd) as (E0 & _).
  set (q := a0 / d) in *. set (p := nth i _ 0) in *. clearbody q p.
  assert (q <> 0) by (intros ->; lia). subst a0. rewrite !Z.abs_mul. nia.
Qed.

(** * Completeness of the search *)
Lemma map2_scale_diff (a0 : Z) (x y : list Z) : length x = length y ->
  map2 (fun u v => u * a0 - v * 1) x y = map2 (fun u v => a0 * u - v) x y.
Proof.
  revert y. induction x as [|u x IH]; intros [|v y] H; cbn in H; try lia; [reflexivity|].
  cbn [map2]. rewrite IH by lia. f_equal. lia.
Qed.

Lemma floor_near D T n : 0 < D -> Z.abs (D * T - n) < D -> n / D = T \/ n / D = T - 1.
Proof.
  intros HD H. pose proof (Z.div_mod n D ltac:(lia)) as E.
  pose proof (Z.mod_pos_bound n D HD). set (q := n / D) in *. clearbody q.
  assert (q < T + 1) by nia. assert (T - 2 < q) by nia. lia.
Qed.

(** choosing dt *)
Fixpoint pick (k : Z) (D b s t : list Z) : list Z :=
  match D, b, s, t with
  | Di :: D', bi :: b', si :: s', ti :: t' => (ti - (bi * k + si) / Di) :: pick k D' b' s' t'
  | _, _, _, _ => []
  end.

Lemma pick_ok k D b s t : length b = length D -> length s = length D -> length t = length D ->
  tparams k D b s (pick k D b s t) = t /\ length (pick k D b s t) = length D.
Proof.
  revert b s t. induction D as [|Di D IH]; intros b s t Hb Hs Ht;
    destruct b as [|bi b]; destruct s as [|si s]; destruct t as [|ti t]; try discriminate;
    [auto|].
  cbn [length pick tparams] in *. destruct (IH b s t) as [E1 E2]; try lia.
  rewrite E1, E2. split; [f_equal; lia|reflexivity].
Qed.

Lemma pick_box k D b s t : length b = length D -> length s = length D -> length t = length D ->
  Forall (fun d => 0 < d) D ->
  (forall i, (i < length D)%nat ->
     Z.abs (nth i D 0 * nth i t 0 - (nth i b 0 * k + nth i s 0)) < nth i D 0) ->
  in_box (pick k D b s t) (map (fun _ => 2) D).
Proof.
  revert b s t. induction D as [|Di D IH]; intros b s t Hb Hs Ht HP H;
    destruct b as [|bi b]; destruct s as [|si s]; destruct t as [|ti t]; try discriminate;
    [constructor|].
  cbn [length pick map] in *. inversion HP; subst. constructor.
  - specialize (H 0%nat ltac:(lia)). cbn [nth] in H. apply floor_near in H; [lia|assumption].
  - apply IH; try lia; [assumption|]. intros i Hi. exact (H (S i) ltac:(lia)).
Qed.

Lemma in_box_length i sh : in_box i sh -> length i = length sh.
Proof. intros H. induction H; cbn; congruence. Qed.

Definition upper_gap (shape x : list Z) : list Z := map2 (fun m v => m - 1 - v) shape x.

Lemma map_const_length {A B} (c : Z) (l : list A) (m : list B) : length l = length m ->
  map (fun _ => c) l = map (fun _ => c) m.
Proof.
  revert m. induction l as [|a l IH]; intros [|b m] H; cbn in H; try lia; [reflexivity|].
  cbn [map]. f_equal. apply IH. lia.
Qed.

Lemma solve_close a0 rest shape x : rest <> [] ->
  Forall (fun a => a <> 0) (a0 :: rest) -> in_box x shape ->
  length shape = S (length rest) ->
  close a0 rest (tl (upper_gap shape x)) ->
  exists r, solve_index (zdot (a0 :: rest) x) shape (a0 :: rest) = Ok (Some r).
Proof.
  intros Hr Ha Hbox Hsh Hc.
  assert (Ha0 : a0 <> 0) by (now inversion Ha).
  destruct (good_nonzero a0 rest Ha0) as [Hg Hgall].
  destruct (init_diophantine_ok a0 rest shape Ha Hr ltac:(lia)) as (sd & s & Esd & Hsd).
  unfold solve_index. rewrite Esd. cbn [bind]. unfold solve_index_data.
  destruct Hsd as [Hd Hs Hz0 Hzs Hzr HD Hb Hsl Hpos Hsol Hver].
  rewrite Hs. replace (match shape with [] => true | _ => true end) with true by (destruct shape; reflexivity).
  cbn [assert_ bind]. unfold pymod, pydiv. rewrite Hd.
  replace (gall a0 rest =? 0) with false by lia. cbn [bind].
  set (pos := zdot (a0 :: rest) x).
  assert (Hdiv : (gall a0 rest | pos)) by (apply zdot_divide, gall_divides).
  replace (pos mod gall a0 rest =? 0) with true
    by (symmetry; apply Z.eqb_eq; apply Z.mod_divide; assumption).
  cbn [negb]. set (k := pos / gall a0 rest).
  assert (Epos : pos = gall a0 rest * k).
  { unfold k. destruct Hdiv as [q ->]. rewrite Z.div_mul by assumption. ring. }
  destruct (try_dts_complete k sd s shape (cart (map (fun _ => 2) (sd_zs sd)))) as (r & Er & Hr2);
    auto; try lia.
  { apply Forall_forall. intros dt Hdt. apply In_cart in Hdt. apply in_box_length in Hdt.
    now rewrite map_length in Hdt. }
  rewrite Er. destruct r as [r|]; [eauto|]. exfalso.
  pose proof (in_box_length _ _ Hbox) as Hxl.
  set (t := par a0 rest x).
  assert (Ht : length t = length rest) by apply par_length.
  destruct (pick_ok k (sd_D sd) (sd_b sd) s t) as [Ep Epl]; try lia.
  apply (Hr2 eq_refl (pick k (sd_D sd) (sd_b sd) s t)).
  2:{ rewrite Ep, Hsol by assumption. unfold t. rewrite sol_par; auto. lia. }
  apply In_cart. rewrite (map_const_length 2 (sd_zs sd) (sd_D sd)) by lia.
  apply pick_box; try lia; [assumption|].
  intros i Hi.
  (* the vertex *)
  destruct x as [|xh xt]; [cbn in Hxl; lia|].
  destruct shape as [|m0 ms]; [discriminate|]. cbn [length] in *.
  set (e := tl (upper_gap (m0 :: ms) (xh :: xt))) in *.
  assert (Ee : e = map2 (fun m v => m - 1 - v) ms xt) by reflexivity.
  assert (Hel : length e = length rest) by (rewrite Ee, map2_length; lia).
  set (xs := (a0 * xh - zdot rest e) :: map (fun m => a0 * (m - 1)) ms).
  set (T := par a0 rest xs).
  assert (Edot : forall r' ms' xt', length ms' = length r' -> length xt' = length r' ->
             zdot r' (map2 (fun m v => m - 1 - v) ms' xt')
             = zdot r' (map (fun m => m - 1) ms') - zdot r' xt').
  { clear. induction r' as [|a r' IH]; intros [|m ms] [|v xt] H1 H2; cbn in H1, H2; try lia;
      cbn [map2 map zdot]; [lia|]. rewrite IH by lia. lia. }
  assert (Hlen : length xs = S (length rest)) by (unfold xs; cbn [length]; rewrite map_length; lia).
  assert (Hver' : nth i (sd_D sd) 0 * nth i T 0
                  = nth i (sd_b sd) 0 * (a0 * k) + nth i s 0 * a0).
  { apply Hver; [assumption| | |lia].
    - unfold xs. cbn [zdot].
      replace (zdot rest (map (fun m => a0 * (m - 1)) ms))
        with (a0 * zdot rest (map (fun m => m - 1) ms)).
      2:{ rewrite <- zdot_scale_r. unfold zscale. now rewrite map_map. }
      rewrite Ee, Edot by lia. unfold pos in Epos. cbn [zdot] in Epos. lia.
    - intros j Hj. unfold xs. destruct j as [|j]; [lia|]. cbn [nth].
      rewrite nth_indep with (d' := (fun m => a0 * (m - 1)) 0) by (rewrite map_length; lia).
      rewrite (map_nth (fun m => a0 * (m - 1))). lia. }
  assert (Hdiff : Z.abs (a0 * nth i t 0 - nth i T 0) < Z.abs a0).
  { replace (a0 * nth i t 0 - nth i T 0) with (nth i (par a0 rest (dvec a0 rest e)) 0);
      [apply close_par; auto; lia|].
    replace (dvec a0 rest e) with (map2 (fun u v => u * a0 - v * 1) (xh :: xt) xs).
    - rewrite par_lin by (cbn [length] in *; lia).
      rewrite map2_nth by (rewrite par_length; lia).
      unfold t, T. ring.
    - unfold xs, dvec. cbn [map2]. f_equal; [lia|]. rewrite Ee. unfold zscale.
      clear - Hsh Hxl. assert (Hl : length ms = length xt) by lia. clear Hsh Hxl.
      revert xt Hl. induction ms as [|m ms IH]; intros [|v xt] Hl; cbn in Hl; try lia; [reflexivity|].
      cbn [map map2]. rewrite IH by lia. f_equal. ring. }
  set (Di := nth i (sd_D sd) 0) in *.
  assert (HDi : 0 < Di).
  { rewrite Forall_forall in Hpos. apply Hpos. apply nth_In. lia. }
  set (ti := nth i t 0) in *. set (Ti := nth i T 0) in *.
  set (w := nth i (sd_b sd) 0 * k + nth i s 0) in *.
  assert (Hw : Di * Ti = a0 * w) by (unfold w; lia).
  clearbody Di ti Ti w. clear - Ha0 Hdiff HDi Hw.
  assert (Z.abs a0 * Z.abs (Di * ti - w) < Z.abs a0 * Di).
  { rewrite <- Z.abs_mul. replace (a0 * (Di * ti - w)) with (Di * (a0 * ti - Ti)) by lia.
    rewrite Z.abs_mul. rewrite (Z.abs_eq Di) by lia. nia. }
  nia.
Qed.

(** * Strides of slices *)

(** [nested B strides e]: every stride is B_i * s_i with n_i * B_i dividing the
    preceding block size, and |e_i| steps of size |s_i| stay within n_i items. *)
Inductive nested : Z -> list Z -> list Z -> Prop :=
| nested_nil B : nested B [] []
| nested_cons B B1 n s e rest es :
    0 < B1 -> s <> 0 -> Z.abs e * Z.abs s <= n - 1 -> (n * B1 | B) ->
    nested B1 rest es -> nested B (B1 * s :: rest) (e :: es).

Lemma nested_n_pos n B1 e s : Z.abs e * Z.abs s <= n - 1 -> 0 < B1 -> 0 < n.
Proof. nia. Qed.

Lemma nested_dot B rest es : 0 < B -> nested B rest es -> Z.abs (zdot rest es) < B.
Proof.
  intros HB H. revert HB. induction H as [B|B B1 n s e rest es HB1 Hs He Hd H IH]; intros HB.
  - cbn. lia.
  - cbn [zdot]. specialize (IH HB1). destruct Hd as [c Hc].
    assert (Hn : 0 < n) by nia.
    assert (0 < c) by nia.
    assert (Z.abs (B1 * s * e) <= B1 * (n - 1)) by (rewrite !Z.abs_mul; nia).
    assert (n * B1 <= B) by nia. lia.
Qed.

Lemma nested_zero B rest es : nested B rest es -> zdot rest es = 0 -> es = map (fun _ => 0) es.
Proof.
  intros H. induction H as [B|B B1 n s e rest es HB1 Hs He Hd H IH]; intros H0; [reflexivity|].
  cbn [zdot map] in *. pose proof (nested_dot B1 rest es HB1 H) as Hb.
  assert (e = 0).
  { destruct (Z.eq_dec (s * e) 0) as [E|E]; [nia|].
    assert (Z.abs (B1 * s * e) >= B1); [|lia].
    replace (B1 * s * e) with (B1 * (s * e)) by ring. rewrite Z.abs_mul. nia. }
  subst e. f_equal. apply IH. lia.
Qed.

Lemma abs_divide_half g s : (g | s) -> s <> 0 -> Z.abs g <> Z.abs s -> 2 * Z.abs g <= Z.abs s.
Proof.
  intros [q ->] Hs Hne. rewrite Z.abs_mul in *.
  assert (Z.abs q <> 0) by (intros E; rewrite E in *; lia).
  assert (Z.abs q <> 1) by (intros E; rewrite E in *; lia). nia.
Qed.

(** the numerical heart: |g e| + |y| <= M unless y = 0 *)
Lemma close_bound M n g s e y c g0 x :
  0 < n -> 0 < c -> g0 <> 0 -> s <> 0 -> g <> 0 ->
  M = c * n * Z.abs g0 -> Z.abs e * Z.abs s <= n - 1 ->
  (g | s) -> c * n * g0 * x + s * y = g ->
  2 * Z.abs g * Z.abs y <= M -> (g | c * n * g0) ->
  y <> 0 -> Z.abs g * Z.abs e + Z.abs y <= M.
Proof.
  intros Hn Hc Hg0 Hs Hg HM He Hgs HB Hy Hgn Hy0.
  assert (1 <= Z.abs g) by lia. assert (1 <= Z.abs g0) by lia.
  assert (HK : 1 <= c * Z.abs g0) by (clear - Hc H0; nia).
  assert (HMK : M = n * (c * Z.abs g0)) by (rewrite HM; ring).
  assert (Hnm : n <= M) by (rewrite HMK; clear - HK Hn; nia).
  destruct (Z.eq_dec (Z.abs g) (Z.abs s)) as [Egs|Egs].
  2:{ pose proof (abs_divide_half g s Hgs Hs Egs).
      assert (2 * (Z.abs g * Z.abs e) <= n - 1) by (clear - H1 He; nia).
      assert (2 * Z.abs y <= M) by (clear - Hy H; nia). lia. }
  rewrite <- Egs in He.
  destruct (Z.eq_dec (c * Z.abs g0) 1) as [E1|E1].
  2:{ assert (2 * n <= M) by (rewrite HMK; clear - HK E1 Hn; nia).
      assert (2 * Z.abs y <= M) by (clear - Hy H; nia). lia. }
  assert (c = 1) by (clear - E1 Hc H0; nia). assert (Z.abs g0 = 1) by (clear - E1 Hc H0; nia). subst c.
  assert (Mn : M = n) by (rewrite HMK, E1; ring). clear HM HMK. subst M.
  assert (Hgn' : (Z.abs g | n)).
  { apply Z.divide_abs_l. destruct Hgn as [q Hq]. exists (q * g0).
    clear - Hq H2. assert (g0 = 1 \/ g0 = -1) as [->| ->] by lia; lia. }
  destruct Hgn' as [Q HQ].
  assert (HQ0 : 0 < Q) by (clear - HQ Hn H; nia).
  assert (HyQ : 2 * Z.abs y <= Q) by (clear - HQ Hy H; nia).
  (* y = +-1 modulo Q *)
  assert (Hmod : exists j sg, Z.abs sg = 1 /\ y = sg + j * Q).
  { assert (Hgx : exists j1, 1 * n * g0 * x = g * (j1 * Q)).
    { exists (g0 * x * Z.sgn g). rewrite HQ. destruct (Z.abs_spec g) as [[? ->]|[? ->]].
      - rewrite Z.sgn_pos by lia. ring.
      - rewrite Z.sgn_neg by lia. ring. }
    destruct Hgx as [j1 Hj1]. rewrite Hj1 in HB.
    assert (s = g \/ s = - g) as [->| ->] by lia.
    - exists (- j1), 1. split; [reflexivity|].
      apply (Z.mul_reg_l _ _ g Hg). lia.
    - exists j1, (-1). split; [reflexivity|].
      apply (Z.mul_reg_l _ _ g Hg). lia. }
  destruct Hmod as (j & sg & Hsg & Ey).
  assert (Hy1 : Z.abs y <= 1).
  { destruct (Z.eq_dec j 0) as [->|Hj]; [lia|].
    assert (Q <= Z.abs (j * Q)) by (rewrite Z.abs_mul; clear - Hj HQ0; nia). lia. }
  assert (HeQ : Z.abs e <= Q - 1) by (clear - He HQ H; nia).
  assert (Z.abs g * Z.abs e <= Z.abs g * (Q - 1)) by (apply Z.mul_le_mono_nonneg_l; lia).
  lia.
Qed.

Lemma nested_close B rest es g0 : 0 < B -> g0 <> 0 -> nested B rest es -> close (B * g0) rest es.
Proof.
  intros HB Hg0 H. revert HB g0 Hg0.
  induction H as [B|B B1 n s e rest es HB1 Hs He Hd H IH]; intros HB g0 Hg0; [exact I|].
  cbn [close]. destruct (extgcd (B * g0) (B1 * s)) as [[d x0] y0] eqn:E.
  destruct (extgcd_spec _ _ _ _ _ E) as (HBz & D0 & D1 & Hgcd & Hsg & _ & Hyb & _).
  assert (Hne : B * g0 <> 0) by (clear - HB Hg0; nia).
  specialize (Hsg Hne). specialize (Hyb Hne).
  assert (Hdne : d <> 0) by (intros ->; lia).
  assert (Hn : 0 < n) by (clear - He; nia).
  destruct Hd as [c Hc].
  assert (Hc0 : 0 < c) by (clear - Hc HB Hn HB1; nia).
  assert (HdB : (B1 | d)).
  { rewrite <- HBz. rewrite Hc. exists (c * n * g0 * x0 + s * y0). ring. }
  destruct HdB as [g Hg].
  assert (Hgne : g <> 0) by (intros ->; lia).
  clear E Hsg Hgcd Hdne. rewrite Hg in HBz, D0, D1, Hyb |- *. clear Hg d. subst B.
  assert (Hgs : (g | s)).
  { apply (Z.mul_divide_cancel_r g s B1); [lia|].
    rewrite (Z.mul_comm s B1). exact D1. }
  assert (Hgc : (g | c * n * g0)).
  { apply (Z.mul_divide_cancel_r g (c * n * g0) B1); [lia|].
    replace (c * n * g0 * B1) with (c * (n * B1) * g0) by ring. exact D0. }
  split.
  - pose proof (nested_dot B1 rest es HB1 H) as HS. set (S := zdot rest es) in *.
    clearbody S. clear IH H.
    assert (HBz' : c * n * g0 * x0 + s * y0 = g).
    { apply (Z.mul_reg_l _ _ B1); [lia|]. rewrite (Z.mul_comm B1 g), <- HBz. ring. }
    assert (HM : Z.abs (c * (n * B1) * g0) = B1 * (c * n * Z.abs g0)).
    { rewrite !Z.abs_mul. rewrite (Z.abs_eq c), (Z.abs_eq n), (Z.abs_eq B1) by lia. ring. }
    rewrite HM in *.
    rewrite Z.abs_mul, (Z.abs_eq B1) in Hyb by lia.
    assert (Hyb' : 2 * Z.abs g * Z.abs y0 <= c * n * Z.abs g0).
    { apply (Z.mul_le_mono_pos_l _ _ B1); [lia|].
      replace (B1 * (2 * Z.abs g * Z.abs y0)) with (2 * (Z.abs g * B1) * Z.abs y0) by ring. exact Hyb. }
    clear Hyb HBz D0 D1 HM.
    destruct (Z.eq_dec y0 0) as [->|Hy0].
    + assert (Hgle : Z.abs g <= Z.abs s).
      { apply Z.divide_abs_l in Hgs. apply Z.divide_abs_r in Hgs.
        apply Z.divide_pos_le; [lia|exact Hgs]. }
      assert (Hge : Z.abs g * Z.abs e <= n - 1).
      { eapply Z.le_trans; [|exact He]. rewrite (Z.mul_comm (Z.abs e)).
        apply Z.mul_le_mono_nonneg_r; lia. }
      replace (g * B1 * e + 0 * S) with (B1 * (g * e)) by ring.
      rewrite !Z.abs_mul, (Z.abs_eq B1) by lia.
      apply Z.mul_lt_mono_pos_l; [lia|].
      assert (HK : 1 <= c * Z.abs g0) by (clear - Hc0 Hg0; nia).
      replace (c * n * Z.abs g0) with (n * (c * Z.abs g0)) by ring.
      assert (n * 1 <= n * (c * Z.abs g0)) by (apply Z.mul_le_mono_nonneg_l; lia). lia.
    + pose proof (close_bound (c * n * Z.abs g0) n g s e y0 c g0 x0
        Hn Hc0 Hg0 Hs Hgne eq_refl He Hgs HBz' Hyb' Hgc Hy0) as Hcb.
      assert (H1 : Z.abs (g * B1 * e + y0 * S) <= B1 * (Z.abs g * Z.abs e) + Z.abs y0 * Z.abs S).
      { eapply Z.le_trans; [apply Z.abs_triangle|]. rewrite !Z.abs_mul, (Z.abs_eq B1) by lia. lia. }
      assert (H2 : Z.abs y0 * Z.abs S < Z.abs y0 * B1) by (apply Z.mul_lt_mono_pos_l; lia).
      assert (H3 : B1 * (Z.abs g * Z.abs e + Z.abs y0) <= B1 * (c * n * Z.abs g0))
        by (apply Z.mul_le_mono_nonneg_l; lia).
      lia.
  - rewrite Z.mul_comm. apply IH; assumption.
Qed.

(** C16: exactly which solutions solve_index finds, for all nonzero strides.

    solve_index looks for the solution next to the vertex in which all
    coordinates but the first are at their upper bounds, and tries offsets 0 and 1
    per parameter.  [found strides gaps] below says when a solution with the given
    distances to the upper bounds (of all coordinates but the first) is tried. *)
From Verif Require Import Py SliceTools Basics Spec SliceFacts IndexFacts.
From Verif Require Import ExtgcdFacts DioFacts ElimFacts MatrixFacts SolverFacts CloseFacts SolveFacts.

(** One inequality per coordinate after the first: with (d, _, y) = extgcd(a0, a1),
    -1 <= (d * e1 + y * (a2 * e2 + a3 * e3 + ...)) / a0 < 1, and the same with d in
    the place of a0 for the following coordinates. *)
Fixpoint found (a0 : Z) (rest e : list Z) : Prop :=
  match rest, e with
  | a1 :: r, e1 :: e' =>
      let '(d, _, y) := extgcd a0 a1 in
      - (a0 * a0) <= a0 * (d * e1 + y * zdot r e') < a0 * a0 /\ found d r e'
  | _, _ => True
  end.

Lemma found_par a0 rest e : a0 <> 0 -> length e = length rest ->
  found a0 rest e <->
  forall i, (i < length rest)%nat ->
  - (a0 * a0) < a0 * nth i (par a0 rest (dvec a0 rest e)) 0 <= a0 * a0.
Proof.
  revert a0 e. induction rest as [|a1 r IH]; intros a0 e Ha Hl.
  { destruct e; [|discriminate]. cbn. split; auto. intros _ i Hi. lia. }
  destruct e as [|e1 e']; [discriminate|]. cbn [length] in *.
  destruct (extgcd a0 a1) as [[d x0] y0] eqn:E. cbn [found]. rewrite E.
  assert (Hd : d <> 0).
  { pose proof (eg_nonzero a0 a1 Ha) as H. unfold eg in H. rewrite E in H. exact H. }
  rewrite (par_dvec a0 a1 r e1 e' d x0 y0 E Hd) by lia.
  rewrite (IH d e' Hd) by lia.
  destruct (eg_quotients _ _ _ _ _ E Hd) as (E0 & _).
  assert (Hq : a0 / d <> 0) by (intros Hz; rewrite Hz in E0; lia).
  assert (Hs : forall i, (i < length r)%nat ->
     nth i (zscale (a0 / d) (par d r (dvec d r e'))) 0 = a0 / d * nth i (par d r (dvec d r e')) 0).
  { intros i Hi. unfold zscale.
    rewrite nth_indep with (d' := a0 / d * 0) by (rewrite map_length, par_length; lia).
    now rewrite (map_nth (fun z => a0 / d * z)). }
  assert (Hk : forall p, (- (a0 * a0) < a0 * (a0 / d * p) <= a0 * a0) <-> (- (d * d) < d * p <= d * d)).
  { intros p. set (q := a0 / d) in *. clearbody q. subst a0. assert (0 < q * q) by nia.
    replace (d * q * (q * p)) with (q * q * (d * p)) by ring.
    replace (d * q * (d * q)) with (q * q * (d * d)) by ring.
    split; intros; nia. }
  split.
  - intros [H1 H2] [|i] Hi; cbn [nth]; [lia|]. rewrite Hs by lia. apply Hk, H2. lia.
  - intros H. split.
    + specialize (H 0%nat ltac:(lia)). cbn [nth] in H. lia.
    + intros i Hi. specialize (H (S i) ltac:(lia)). cbn [nth] in H. rewrite Hs in H by lia. now apply Hk.
Qed.

(** distance of the parameters of any solution to those of the vertex *)
Lemma vertex_gap a0 rest shape sd s x k : a0 <> 0 -> length shape = S (length rest) ->
  sd_ok a0 rest shape sd s -> length x = S (length rest) -> zdot (a0 :: rest) x = gall a0 rest * k ->
  forall i, (i < length rest)%nat ->
  a0 * (nth i (sd_D sd) 0 * nth i (par a0 rest x) 0 - (nth i (sd_b sd) 0 * k + nth i s 0))
  = nth i (sd_D sd) 0 * nth i (par a0 rest (dvec a0 rest (tl (upper_gap shape x)))) 0.
Proof.
  intros Ha0 Hsh [Hd Hs Hz0 Hzs Hzr HD Hb Hsl Hpos Hsol Hver] Hxl Epos i Hi.
  destruct x as [|xh xt]; [cbn in Hxl; lia|].
  destruct shape as [|m0 ms]; [discriminate|]. cbn [length] in *.
  set (e := tl (upper_gap (m0 :: ms) (xh :: xt))) in *.
  assert (Ee : e = map2 (fun m v => m - 1 - v) ms xt) by reflexivity.
  assert (Hel : length e = length rest) by (rewrite Ee, map2_length; lia).
  set (xs := (a0 * xh - zdot rest e) :: map (fun m => a0 * (m - 1)) ms).
  set (T := par a0 rest xs).
  assert (Edot : forall r' ms' xt', length ms' = length r' -> length xt' = length r' ->
             zdot r' (map2 (fun m v => m - 1 - v) ms' xt')
             = zdot r' (map (fun m => m - 1) ms') - zdot r' xt').
  { clear. induction r' as [|a r' IH]; intros [|m ms] [|v xt] H1 H2; cbn in H1, H2; try lia;
      cbn [map2 map zdot]; [lia|]. rewrite IH by lia. lia. }
  assert (Hlen : length xs = S (length rest)) by (unfold xs; cbn [length]; rewrite map_length; lia).
  assert (Hver' : nth i (sd_D sd) 0 * nth i T 0
                  = nth i (sd_b sd) 0 * (a0 * k) + nth i s 0 * a0).
  { apply Hver; [assumption| | |lia].
    - unfold xs. cbn [zdot].
      replace (zdot rest (map (fun m => a0 * (m - 1)) ms))
        with (a0 * zdot rest (map (fun m => m - 1) ms)).
      2:{ rewrite <- zdot_scale_r. unfold zscale. now rewrite map_map. }
      rewrite Ee, Edot by lia. cbn [zdot] in Epos. lia.
    - intros j Hj. unfold xs. destruct j as [|j]; [lia|]. cbn [nth].
      rewrite nth_indep with (d' := (fun m => a0 * (m - 1)) 0) by (rewrite map_length; lia).
      rewrite (map_nth (fun m => a0 * (m - 1))). lia. }
  replace (nth i (par a0 rest (dvec a0 rest e)) 0) with (a0 * nth i (par a0 rest (xh :: xt)) 0 - nth i T 0); [lia|].
  replace (dvec a0 rest e) with (map2 (fun u v => u * a0 - v * 1) (xh :: xt) xs).
  - rewrite par_lin by (cbn [length] in *; lia).
    rewrite map2_nth by (rewrite par_length; lia).
    unfold T. ring.
  - unfold xs, dvec. cbn [map2]. f_equal; [lia|]. rewrite Ee. unfold zscale.
    clear - Hsh Hxl. assert (Hl : length ms = length xt) by lia. clear Hsh Hxl.
    revert xt Hl. induction ms as [|m ms IH]; intros [|v xt] Hl; cbn in Hl; try lia; [reflexivity|].
    cbn [map map2]. rewrite IH by lia. f_equal. ring.
Qed.

Lemma floor_exact D T n : 0 < D -> (0 <= T - n / D < 2 <-> - D < D * T - n <= D).
Proof.
  intros HD. pose proof (Z.div_mod n D ltac:(lia)) as E.
  pose proof (Z.mod_pos_bound n D HD). set (q := n / D) in *. clearbody q. split; intros; nia.
Qed.

Lemma pick_box_exact k D b s t : length b = length D -> length s = length D -> length t = length D ->
  Forall (fun d => 0 < d) D ->
  (in_box (pick k D b s t) (map (fun _ => 2) D) <->
   forall i, (i < length D)%nat ->
     - nth i D 0 < nth i D 0 * nth i t 0 - (nth i b 0 * k + nth i s 0) <= nth i D 0).
Proof.
  revert b s t. induction D as [|Di D IH]; intros b s t Hb Hs Ht HP;
    destruct b as [|bi b]; destruct s as [|si s]; destruct t as [|ti t]; try discriminate.
  { cbn. split; [intros _ i Hi; lia|constructor]. }
  cbn [length pick map] in *. inversion HP as [|? ? H1 H2]; subst. specialize (IH b s t ltac:(lia) ltac:(lia) ltac:(lia) H2).
  pose proof (floor_exact Di ti (bi * k + si) H1) as F. split.
  - intros H [|i] Hi; cbn [nth]; inversion H as [|? ? ? ? B1 B2]; subst; [now apply F|]. apply IH; [exact B2|lia].
  - intros H. constructor; [apply F; exact (H 0%nat ltac:(lia))|]. apply IH. intros i Hi. exact (H (S i) ltac:(lia)).
Qed.

Lemma pick_tparams k D b s dt : length b = length D -> length s = length D -> length dt = length D ->
  pick k D b s (tparams k D b s dt) = dt /\ length (tparams k D b s dt) = length D.
Proof.
  revert b s dt. induction D as [|Di D IH]; intros b s t Hb Hs Ht;
    destruct b as [|bi b]; destruct s as [|si s]; destruct t as [|ti t]; try discriminate; [auto|].
  cbn [length pick tparams] in *. destruct (IH b s t) as [E1 E2]; try lia.
  rewrite E1, E2. split; [f_equal; lia|reflexivity].
Qed.

Lemma try_dts_some k sd s shape dts r : sd_s sd = Some s ->
  length (sd_D sd) = length (sd_zs sd) -> length (sd_b sd) = length (sd_zs sd) ->
  length s = length (sd_zs sd) -> Forall (fun d => 0 < d) (sd_D sd) ->
  Forall (fun dt => length dt = length (sd_zs sd)) dts ->
  try_dts k sd shape dts = Ok (Some r) ->
  exists dt, In dt dts /\ r = vcomb (zscale k (sd_z0 sd)) (tparams k (sd_D sd) (sd_b sd) s dt) (sd_zs sd).
Proof.
  intros Es HD Hb Hs HP HF. induction HF as [|dt dts Hdt HF IH]; cbn [try_dts]; [discriminate|].
  rewrite start_index, Es, accum_complete by assumption. cbn [bind].
  destruct (in_shape _ shape) as [[|]|]; cbn [bind]; try discriminate.
  - intros H. injection H as <-. exists dt. split; [now left|reflexivity].
  - intros H. destruct (IH H) as (dt' & Hin & E). exists dt'. split; [now right|exact E].
Qed.

(** The distances of [x] to the upper bounds, all coordinates but the first. *)
Definition gaps (shape x : list Z) : list Z := tl (map2 (fun m v => m - 1 - v) shape x).

Theorem C16_found_exactly_partial : forall a0 rest shape pos,
  Forall (fun a => a <> 0) (a0 :: rest) -> length shape = length (a0 :: rest) ->
  exists r, solve_index pos shape (a0 :: rest) = Ok r
    /\ (forall x, r = Some x -> in_box x shape /\ zdot x (a0 :: rest) = pos /\ found a0 rest (gaps shape x))
    /\ (forall x, in_box x shape -> zdot x (a0 :: rest) = pos -> found a0 rest (gaps shape x) -> r <> None).
Proof.
  intros a0 rest shape pos Ha Hsh.
  destruct (solve_index_total pos shape (a0 :: rest) (fun E => ltac:(discriminate E)) Ha Hsh) as [r Er].
  exists r. split; [exact Er|].
  assert (Ha0 : a0 <> 0) by (now inversion Ha).
  destruct rest as [|a1 rr].
  { split.
    - intros x ->. destruct (solve_index_sound pos shape [a0] x (fun E => ltac:(discriminate E)) Hsh Er). cbn [found]. auto.
    - intros x Hx Hp _ ->. destruct shape as [|m [|]]; try discriminate.
      inversion Hx as [|v ? xs ? Hv Hxs]; subst. inversion Hxs; subst. revert Er.
      unfold solve_index. cbn [init_diophantine bind].
      unfold solve_index_data. cbn [sd_s assert_ bind sd_d zdot].
      unfold pymod, pydiv. replace (a0 =? 0) with false by lia. cbn [bind].
      replace (v * a0 + 0) with (v * a0) by lia.
      rewrite Z.mod_mul, Z.div_mul by assumption. cbn [Z.eqb negb].
      cbn [map cart sd_zs try_dts accum sd_z0 bind in_shape axpy map2].
      replace (v * 1 + 0) with v by lia.
      replace ((0 <=? v) && (v <? m)) with true by lia. discriminate. }
  assert (Hr : a1 :: rr <> []) by congruence. set (rest := a1 :: rr) in *. clearbody rest. clear a1 rr.
  destruct (good_nonzero a0 rest Ha0) as [Hg Hgall].
  destruct (init_diophantine_ok a0 rest shape Ha Hr ltac:(cbn [length] in *; lia)) as (sd & s & Esd & Hsd).
  pose proof Hsd as [Hd Hs Hz0 Hzs Hzr HD Hb Hsl Hpos Hsol Hver].
  cbn [length] in Hsh.
  pose proof Er as Er'.
  unfold solve_index in Er'. rewrite Esd in Er'. cbn [bind] in Er'. unfold solve_index_data in Er'.
  rewrite Hs in Er'. replace (match shape with [] => true | _ => true end) with true in Er' by (destruct shape; reflexivity).
  cbn [assert_ bind] in Er'. unfold pymod, pydiv in Er'. rewrite Hd in Er'.
  replace (gall a0 rest =? 0) with false in Er' by lia. cbn [bind] in Er'.
  set (k := pos / gall a0 rest) in *.
  assert (HF : Forall (fun dt => length dt = length (sd_zs sd)) (cart (map (fun _ => 2) (sd_zs sd)))).
  { apply Forall_forall. intros dt Hdt. apply In_cart in Hdt. apply in_box_length in Hdt. now rewrite map_length in Hdt. }
  (* the condition in terms of the parameters *)
  assert (Hcond : forall x, length x = S (length rest) -> zdot (a0 :: rest) x = gall a0 rest * k ->
     found a0 rest (gaps shape x)
     <-> in_box (pick k (sd_D sd) (sd_b sd) s (par a0 rest x)) (map (fun _ => 2) (sd_D sd))).
  { intros x Hx Hp. rewrite pick_box_exact; rewrite ?par_length; try lia; [|assumption].
    rewrite found_par; [|assumption|].
    2:{ unfold gaps. destruct shape as [|m0 ms]; [discriminate|]. destruct x as [|xh xt]; [discriminate|].
        cbn [map2 tl length] in *. rewrite map2_length. lia. }
    change (gaps shape x) with (tl (upper_gap shape x)).
    pose proof (vertex_gap a0 rest shape sd s x k Ha0 Hsh Hsd Hx Hp) as Hv.
    assert (forall i, (i < length rest)%nat ->
      (- (a0 * a0) < a0 * nth i (par a0 rest (dvec a0 rest (tl (upper_gap shape x)))) 0 <= a0 * a0
       <-> - nth i (sd_D sd) 0 < nth i (sd_D sd) 0 * nth i (par a0 rest x) 0 - (nth i (sd_b sd) 0 * k + nth i s 0) <= nth i (sd_D sd) 0)).
    { intros i Hi. specialize (Hv i Hi).
      assert (HDi : 0 < nth i (sd_D sd) 0) by (rewrite Forall_forall in Hpos; apply Hpos, nth_In; lia).
      set (Di := nth i (sd_D sd) 0) in *. set (p := nth i (par a0 rest (dvec _ _ _)) 0) in *.
      set (de := Di * _ - _) in *. clearbody Di p de. clear - Ha0 Hv HDi.
      assert (0 < a0 * a0) by nia.
      assert (E : Di * (a0 * p) = (a0 * a0) * de) by (transitivity (a0 * (Di * p)); [ring|]; rewrite <- Hv; ring).
      split; intros [L U]; split; nia. }
    rewrite HD. split; intros H' i Hi; apply H; auto. }
  assert (Hmod : forall x, zdot x (a0 :: rest) = pos -> zdot (a0 :: rest) x = gall a0 rest * k /\ pos mod gall a0 rest = 0).
  { intros x Hp. rewrite zdot_comm in Hp.
    assert (Hdiv : (gall a0 rest | pos)) by (rewrite <- Hp; apply zdot_divide, gall_divides). split.
    - rewrite Hp. unfold k. destruct Hdiv as [q ->]. rewrite Z.div_mul by assumption. ring.
    - now apply Z.mod_divide. }
  split.
  - intros x ->. destruct (solve_index_sound pos shape (a0 :: rest) x (fun E => ltac:(discriminate E)) Hsh Er) as [Hx Hp].
    split; [exact Hx|]. split; [exact Hp|]. destruct (Hmod x Hp) as [Hp' Hm].
    rewrite Hm in Er'. cbn [Z.eqb negb] in Er'.
    destruct (try_dts_some k sd s shape _ x Hs ltac:(lia) ltac:(lia) ltac:(lia) Hpos HF Er') as (dt & Hin & Ex).
    pose proof (in_box_length _ _ Hx) as Hxl.
    apply Hcond; [lia|exact Hp'|].
    assert (Hdt : length dt = length (sd_D sd)).
    { apply In_cart, in_box_length in Hin. rewrite map_length in Hin. lia. }
    destruct (pick_tparams k (sd_D sd) (sd_b sd) s dt ltac:(lia) ltac:(lia) Hdt) as [P1 P2].
    rewrite Ex, Hsol, par_sol by (auto; lia). rewrite P1.
    apply In_cart in Hin. now rewrite (map_const_length 2 (sd_D sd) (sd_zs sd)) by lia.
  - intros x Hx Hp Hf ->. destruct (Hmod x Hp) as [Hp' Hm].
    rewrite Hm in Er'. cbn [Z.eqb negb] in Er'.
    pose proof (in_box_length _ _ Hx) as Hxl.
    apply Hcond in Hf; [|lia|exact Hp'].
    destruct (try_dts_complete k sd s shape (cart (map (fun _ => 2) (sd_zs sd)))) as (r & Er2 & Hr2);
      auto; try lia. rewrite Er' in Er2. injection Er2 as <-.
    destruct (pick_ok k (sd_D sd) (sd_b sd) s (par a0 rest x)) as [Ep Epl]; rewrite ?par_length; try lia.
    apply (Hr2 eq_refl (pick k (sd_D sd) (sd_b sd) s (par a0 rest x))).
    + apply In_cart. now rewrite (map_const_length 2 (sd_zs sd) (sd_D sd)) by lia.
    + rewrite Ep, Hsol by apply par_length. rewrite sol_par; auto. lia.
Qed.
Print Assumptions C16_found_exactly_partial.

(** One axis: always found. *)
Theorem C16_one_axis_partial : forall n a pos, a <> 0 ->
  exists r, solve_index pos [n] [a] = Ok r /\ forall j, r = Some [j] <-> 0 <= j < n /\ j * a = pos.
Proof.
  intros n a pos Ha.
  destruct (C16_found_exactly_partial a [] [n] pos) as (r & Er & H1 & H2); [now repeat constructor|reflexivity|].
  exists r. split; [exact Er|]. intros j. split.
  - intros ->. destruct (H1 _ eq_refl) as (B & E & _). inversion B; subst. cbn [zdot] in *. lia.
  - intros [B E]. assert (B' : in_box [j] [n]) by (repeat constructor; lia).
    destruct r as [x|]; [|exfalso; apply (H2 [j] B'); [cbn [zdot]; lia|exact I|reflexivity]].
    destruct (H1 _ eq_refl) as (Bx & Ex & _). inversion Bx as [|v ? xs ? Hv Hxs]; subst. inversion Hxs; subst.
    cbn [zdot] in *. do 2 f_equal. nia.
Qed.
Print Assumptions C16_one_axis_partial.

(** Two axes: a solution is found exactly when there is one whose second
    coordinate is less than |a0| / gcd(a0, a1) below its upper bound. *)
Theorem C16_two_axes_partial : forall n0 n1 a0 a1 pos, a0 <> 0 -> a1 <> 0 ->
  exists r, solve_index pos [n0; n1] [a0; a1] = Ok r
    /\ (r <> None <->
        exists x0 x1, 0 <= x0 < n0 /\ 0 <= x1 < n1 /\ x0 * a0 + x1 * a1 = pos
          /\ (n1 - 1 - x1) * Z.gcd a0 a1 < Z.abs a0).
Proof.
  intros n0 n1 a0 a1 pos Ha0 Ha1.
  destruct (C16_found_exactly_partial a0 [a1] [n0; n1] pos) as (r & Er & H1 & H2); [now repeat constructor|reflexivity|].
  exists r. split; [exact Er|].
  assert (Hc : forall x0 x1, 0 <= x1 < n1 ->
    (found a0 [a1] (gaps [n0; n1] [x0; x1]) <-> (n1 - 1 - x1) * Z.gcd a0 a1 < Z.abs a0)).
  { intros x0 x1 Hx. unfold gaps. cbn [map2 tl found zdot].
    destruct (extgcd a0 a1) as [[d x] y] eqn:E. destruct (extgcd_spec _ _ _ _ _ E) as (_ & _ & _ & Hg & Hs & _).
    specialize (Hs Ha0). rewrite <- Hg. set (e := n1 - 1 - x1). assert (0 <= e) by lia. clearbody e.
    rewrite Z.mul_0_r, Z.add_0_r. clear - Hs H Ha0. split.
    - intros [[L U] _]. destruct (Z.abs_spec a0) as [[? ->]|[? ->]], (Z.abs_spec d) as [[? ->]|[? ->]]; nia.
    - intros U. split; [|exact I]. destruct (Z.abs_spec a0) as [[? E1]|[? E1]], (Z.abs_spec d) as [[? E2]|[? E2]];
      rewrite E1, E2 in U; split; nia. }
  split.
  - intros Hn. destruct r as [x|]; [|congruence]. destruct (H1 _ eq_refl) as (B & E & F).
    inversion B as [|x0 ? xs ? B0 B']; subst. inversion B' as [|x1 ? ? ? B1 B'']; subst. inversion B''; subst.
    exists x0, x1. cbn [zdot] in *. apply Hc in F; [|exact B1]. repeat split; try lia.
  - intros (x0 & x1 & B0 & B1 & E & F). apply (H2 [x0; x1]).
    + repeat constructor; lia.
    + cbn [zdot]. lia.
    + now apply Hc.
Qed.
Print Assumptions C16_two_axes_partial.

(** Arrays in Fortran order: of all elements only those of the last column are
    found. *)
Theorem C16_fortran_order_refuted : forall n0 n1 i j, 0 <= i < n0 -> 0 <= j < n1 ->
  solve_index (i * 1 + j * n0) [n0; n1] [1; n0] = Ok (if j =? n1 - 1 then Some [i; j] else None).
Proof.
  intros n0 n1 i j Hi Hj.
  destruct (C16_two_axes_partial n0 n1 1 n0 (i * 1 + j * n0) ltac:(lia) ltac:(lia)) as (r & Er & Hr).
  rewrite Er. f_equal.
  assert (Hu : forall x0 x1, 0 <= x0 < n0 -> 0 <= x1 < n1 -> x0 * 1 + x1 * n0 = i * 1 + j * n0 -> x0 = i /\ x1 = j).
  { intros x0 x1 B0 B1 E. assert (x1 = j) by nia. subst. lia. }
  rewrite Z.gcd_1_l in Hr. destruct (Z.eqb_spec j (n1 - 1)) as [Ej|Ej].
  - destruct r as [x|]; [|exfalso; apply (proj2 Hr); [|reflexivity]; exists i, j; repeat split; lia].
    destruct (solve_index_sound _ [n0; n1] [1; n0] x ltac:(congruence) eq_refl Er) as [B E].
    inversion B as [|x0 ? xs ? B0 B']; subst. inversion B' as [|x1 ? ? ? B1 B'']; subst. inversion B''; subst.
    cbn [zdot] in E. destruct (Hu x0 x1) as [-> ->]; auto. lia.
  - destruct r as [x|]; [|reflexivity]. exfalso.
    destruct (proj1 Hr ltac:(discriminate)) as (x0 & x1 & B0 & B1 & E & F).
    destruct (Hu x0 x1) as [-> ->]; auto. lia.
Qed.
Print Assumptions C16_fortran_order_refuted.

Example C16_found_case :
  found 6 [10; 15] (gaps [5; 4; 3] [2; 1; 2]) /\ in_box [2; 1; 2] [5; 4; 3]
  /\ solve_index (2 * 6 + 1 * 10 + 2 * 15) [5; 4; 3] [6; 10; 15] = Ok (Some [2; 1; 2])
  /\ solve_index 0 [5; 4; 3] [6; 10; 15] = Ok None /\ zdot [0; 0; 0] [6; 10; 15] = 0.
Proof.
  split; [vm_compute; repeat split; congruence|]. split; [repeat constructor; lia|].
  vm_compute. auto.
Qed.

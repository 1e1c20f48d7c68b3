(** Lemmas on _init_diophantine: the solution lattice of a linear equation. *)
From Verif Require Import Py SliceTools ExtgcdFacts.

(** * Vectors *)
Definition vadd (x y : list Z) : list Z := map2 Z.add x y.

Fixpoint zip_with {A B C} (f : A -> B -> C) (l : list A) (m : list B) : list C :=
  match l, m with
  | a :: l', b :: m' => f a b :: zip_with f l' m'
  | _, _ => []
  end.

Lemma zip_with_length {A B C} (f : A -> B -> C) l m :
  length (zip_with f l m) = Nat.min (length l) (length m).
Proof. revert m. induction l as [|a l IH]; destruct m; cbn; auto. Qed.

Lemma map2_length f l m : length (map2 f l m) = Nat.min (length l) (length m).
Proof. revert m. induction l as [|a l IH]; destruct m; cbn; auto. Qed.

Lemma map2_nth f l m i : (i < length l)%nat -> (i < length m)%nat ->
  nth i (map2 f l m) 0 = f (nth i l 0) (nth i m 0).
Proof.
  revert m i. induction l as [|a l IH]; intros m i Hl Hm; cbn in Hl; [lia|].
  destruct m as [|b m]; cbn in Hm; [lia|].
  destruct i; cbn [map2 nth]; [reflexivity|]. apply IH; lia.
Qed.

Lemma zscale_length c l : length (zscale c l) = length l.
Proof. unfold zscale. now rewrite map_length. Qed.

Lemma zdot_nil_r l : zdot l [] = 0.
Proof. now destruct l. Qed.

Lemma zdot_comm l m : zdot l m = zdot m l.
Proof. revert m. induction l as [|a l IH]; destruct m; cbn; auto. rewrite IH. lia. Qed.

Lemma zdot_scale_l c l m : zdot (zscale c l) m = c * zdot l m.
Proof.
  revert m. induction l as [|a l IH]; destruct m; cbn [zscale map zdot]; try lia.
  change (map (fun z => c * z) l) with (zscale c l). rewrite IH. lia.
Qed.

Lemma zdot_scale_r c l m : zdot l (zscale c m) = c * zdot l m.
Proof. now rewrite zdot_comm, zdot_scale_l, zdot_comm. Qed.

Lemma zdot_map2_lin (p q : Z) l m v : length l = length m ->
  zdot (map2 (fun x y => x * p - y * q) l m) v = zdot l v * p - zdot m v * q.
Proof.
  revert m v. induction l as [|a l IH]; intros m v H; destruct m as [|b m]; cbn in H; try lia;
    cbn [map2 zdot]; [lia|].
  destruct v as [|c v]; [lia|]. rewrite IH by lia. lia.
Qed.

Lemma zdot_app l1 l2 v1 v2 : length l1 = length v1 ->
  zdot (l1 ++ l2) (v1 ++ v2) = zdot l1 v1 + zdot l2 v2.
Proof.
  revert v1. induction l1 as [|a l IH]; intros v1 H; destruct v1 as [|b v]; cbn in H; try lia;
    cbn [app zdot]; [lia|]. rewrite IH; lia.
Qed.

Lemma zdot_opp_l l v : zdot (map Z.opp l) v = - zdot l v.
Proof. revert v. induction l as [|a l IH]; destruct v; cbn [map zdot]; try lia. rewrite IH. lia. Qed.

(** * The recursion seen as a map from parameters to solutions *)
Definition eg (a b : Z) : Z := fst (fst (extgcd a b)).

Fixpoint gall (a0 : Z) (rest : list Z) : Z :=
  match rest with [] => a0 | a1 :: r => gall (eg a0 a1) r end.

Fixpoint good (a0 : Z) (rest : list Z) : Prop :=
  match rest with [] => True | a1 :: r => eg a0 a1 <> 0 /\ good (eg a0 a1) r end.

Fixpoint sol (a0 : Z) (rest : list Z) (k : Z) (t : list Z) : list Z :=
  match rest with
  | [] => [k]
  | a1 :: r =>
      let '(d, x0, y0) := extgcd a0 a1 in
      let t0 := hd 0 t in
      let w := sol d r k (tl t) in
      (x0 * hd 0 w - a1 / d * t0) :: (y0 * hd 0 w + a0 / d * t0) :: tl w
  end.

Fixpoint par (a0 : Z) (rest : list Z) (x : list Z) : list Z :=
  match rest with
  | [] => []
  | a1 :: r =>
      let '(d, x0, y0) := extgcd a0 a1 in
      let u := hd 0 x in
      let v := hd 0 (tl x) in
      (x0 * v - y0 * u) :: par d r ((a0 / d * u + a1 / d * v) :: tl (tl x))
  end.

Lemma sol_length a0 rest k t : length (sol a0 rest k t) = S (length rest).
Proof.
  revert a0 t. induction rest as [|a1 r IH]; intros a0 t; cbn [sol]; [reflexivity|].
  destruct (extgcd a0 a1) as [[d x0] y0]. cbn [length].
  specialize (IH d (tl t)). destruct (sol d r k (tl t)); cbn in *; lia.
Qed.

Lemma par_length a0 rest x : length (par a0 rest x) = length rest.
Proof.
  revert a0 x. induction rest as [|a1 r IH]; intros a0 x; cbn [par]; [reflexivity|].
  destruct (extgcd a0 a1) as [[d x0] y0]. cbn [length]. now rewrite IH.
Qed.

(** Exact quotients of one step. *)
Lemma eg_quotients a0 a1 d x0 y0 : extgcd a0 a1 = (d, x0, y0) -> d <> 0 ->
  a0 = d * (a0 / d) /\ a1 = d * (a1 / d) /\ (a0 / d) * x0 + (a1 / d) * y0 = 1.
Proof.
  intros E Hd. destruct (extgcd_spec _ _ _ _ _ E) as (HB & D0 & D1 & _).
  assert (E0 : a0 = d * (a0 / d)) by (destruct D0 as [q ->]; rewrite Z.div_mul by assumption; lia).
  assert (E1 : a1 = d * (a1 / d)) by (destruct D1 as [q ->]; rewrite Z.div_mul by assumption; lia).
  split; [assumption|]. split; [assumption|].
  set (q0 := a0 / d) in *. set (q1 := a1 / d) in *. clearbody q0 q1. subst a0 a1.
  clear - HB Hd. nia.
Qed.

Lemma sol_dot a0 rest k t : good a0 rest ->
  zdot (a0 :: rest) (sol a0 rest k t) = gall a0 rest * k.
Proof.
  revert a0 t. induction rest as [|a1 r IH]; intros a0 t Hg.
  - cbn. lia.
  - cbn [good sol gall] in *. destruct Hg as [Hd Hg]. unfold eg in *.
    destruct (extgcd a0 a1) as [[d x0] y0] eqn:E. cbn [fst] in *.
    destruct (eg_quotients _ _ _ _ _ E Hd) as (E0 & E1 & EB).
    specialize (IH d (tl t) Hg).
    pose proof (sol_length d r k (tl t)) as Hl.
    destruct (sol d r k (tl t)) as [|w0 w]; [cbn in Hl; lia|].
    cbn [zdot hd tl] in *. rewrite <- IH.
    set (q0 := a0 / d) in *. set (q1 := a1 / d) in *.
    rewrite E0, E1. clear - EB.
    replace (d * w0) with (d * w0 * (q0 * x0 + q1 * y0)) by (rewrite EB; ring). ring.
Qed.

Lemma par_sol a0 rest k t : good a0 rest -> length t = length rest ->
  par a0 rest (sol a0 rest k t) = t.
Proof.
  revert a0 t. induction rest as [|a1 r IH]; intros a0 t Hg Hl.
  - destruct t; [reflexivity|discriminate].
  - destruct t as [|t0 t]; [discriminate|]. cbn [length] in Hl.
    cbn [good sol par] in *. destruct Hg as [Hd Hg]. unfold eg in *.
    destruct (extgcd a0 a1) as [[d x0] y0] eqn:E. cbn [fst] in *.
    destruct (eg_quotients _ _ _ _ _ E Hd) as (E0 & E1 & EB).
    specialize (IH d t Hg ltac:(lia)).
    pose proof (sol_length d r k t) as Hw.
    cbn [hd tl].
    destruct (sol d r k t) as [|w0 w]; [cbn in Hw; lia|].
    cbn [hd tl] in *. set (q0 := a0 / d) in *. set (q1 := a1 / d) in *.
    f_equal.
    + clear - EB. replace t0 with (t0 * (q0 * x0 + q1 * y0)) at 3 by (rewrite EB; lia). ring.
    + replace (q0 * (x0 * w0 - q1 * t0) + q1 * (y0 * w0 + q0 * t0)) with w0; [exact IH|].
      clear - EB. replace w0 with (w0 * (q0 * x0 + q1 * y0)) at 1 by (rewrite EB; lia). ring.
Qed.

Lemma sol_par a0 rest k x : good a0 rest -> gall a0 rest <> 0 ->
  length x = S (length rest) -> zdot (a0 :: rest) x = gall a0 rest * k ->
  sol a0 rest k (par a0 rest x) = x.
Proof.
  revert a0 x. induction rest as [|a1 r IH]; intros a0 x Hg Hne Hl Hx.
  - destruct x as [|x0 [|]]; cbn in Hl; try lia. cbn in *. f_equal. nia.
  - destruct x as [|u [|v x]]; cbn [length] in Hl; try lia.
    cbn [good gall sol par] in *. destruct Hg as [Hd Hg]. unfold eg in *.
    destruct (extgcd a0 a1) as [[d x0] y0] eqn:E. cbn [fst hd tl] in *.
    destruct (eg_quotients _ _ _ _ _ E Hd) as (E0 & E1 & EB).
    set (q0 := a0 / d) in *. set (q1 := a1 / d) in *.
    rewrite (IH d ((q0 * u + q1 * v) :: x) Hg Hne).
    + cbn [hd tl]. f_equal; [|f_equal].
      * clear - EB. replace u with (u * (q0 * x0 + q1 * y0)) at 3 by (rewrite EB; lia). ring.
      * clear - EB. replace v with (v * (q0 * x0 + q1 * y0)) at 3 by (rewrite EB; lia). ring.
    + cbn [length]. lia.
    + cbn [zdot] in *. rewrite <- Hx. rewrite E0, E1. ring.
Qed.

(** [par] is linear. *)
Lemma par_lin a0 rest p q x y :
  length x = S (length rest) -> length y = S (length rest) ->
  par a0 rest (map2 (fun u v => u * p - v * q) x y)
  = map2 (fun u v => u * p - v * q) (par a0 rest x) (par a0 rest y).
Proof.
  revert a0 x y. induction rest as [|a1 r IH]; intros a0 x y Hx Hy; [reflexivity|].
  destruct x as [|u [|v x]]; cbn [length] in Hx; try lia.
  destruct y as [|u' [|v' y]]; cbn [length] in Hy; try lia.
  cbn [par]. destruct (extgcd a0 a1) as [[d x0] y0]. cbn [map2 hd tl].
  f_equal; [ring|].
  rewrite <- IH by (cbn [length]; lia). cbn [map2]. f_equal. f_equal. ring.
Qed.

Lemma gall_divides a0 rest : Forall (fun a => (gall a0 rest | a)) (a0 :: rest).
Proof.
  revert a0. induction rest as [|a1 r IH]; intros a0; cbn [gall].
  - constructor; [apply Z.divide_refl|constructor].
  - specialize (IH (eg a0 a1)). inversion IH as [|? ? H1 H2]; subst.
    unfold eg in *. pose proof (extgcd_divides a0 a1) as HD.
    destruct (extgcd a0 a1) as [[d x0] y0]. cbn [fst] in *. destruct HD as [D0 D1].
    repeat constructor; try assumption; eapply Z.divide_trans; eassumption.
Qed.

Lemma eg_nonzero a0 a1 : a0 <> 0 -> eg a0 a1 <> 0.
Proof.
  intros H. unfold eg. pose proof (extgcd_sign a0 a1) as HS.
  destruct (extgcd a0 a1) as [[d x0] y0]. cbn [fst]. destruct HS as [HS _].
  specialize (HS H). nia.
Qed.

Lemma good_nonzero a0 rest : a0 <> 0 -> good a0 rest /\ gall a0 rest <> 0.
Proof.
  revert a0. induction rest as [|a1 r IH]; intros a0 H; cbn [good gall]; [auto|].
  pose proof (eg_nonzero a0 a1 H) as He. destruct (IH _ He). auto.
Qed.

Lemma good_gall_nonzero a0 rest : rest <> [] -> good a0 rest -> gall a0 rest <> 0.
Proof.
  intros Hr Hg. destruct rest as [|a1 r]; [congruence|]. cbn [good gall] in *.
  now apply good_nonzero.
Qed.

Lemma zdot_divide d a x : Forall (fun v => (d | v)) a -> (d | zdot a x).
Proof.
  intros H. revert x. induction H as [|v a Hv H IH]; intros x; destruct x as [|y x]; cbn [zdot];
    try apply Z.divide_0_r.
  apply Z.divide_add_r; [now apply Z.divide_mul_l|apply IH].
Qed.

(** * The entries computed by the code *)
Definition row_value (k : Z) (t : list Z) (z : Z) (row : list Z) : Z := z * k + zdot row t.

Lemma init_dio_rec_ok a0 rest : rest <> [] -> good a0 rest ->
  exists e, init_dio_rec a0 rest = Ok (Some e)
    /\ dio_d e = gall a0 rest
    /\ length (dio_z0 e) = S (length rest)
    /\ length (dio_ds e) = S (length rest)
    /\ Forall (fun r => length r = length rest) (dio_ds e)
    /\ forall k t, length t = length rest ->
         zip_with (row_value k t) (dio_z0 e) (dio_ds e) = sol a0 rest k t.
Proof.
  revert a0. induction rest as [|a1 r IH]; intros a0 Hr Hg; [congruence|].
  cbn [good] in Hg. destruct Hg as [Hd Hg].
  cbn [init_dio_rec gall sol].
  destruct (extgcd a0 a1) as [[d x0] y0] eqn:E.
  assert (Ed : eg a0 a1 = d) by (unfold eg; now rewrite E).
  rewrite Ed in *.
  unfold pydiv. replace (d =? 0) with false by lia. cbn [bind].
  destruct r as [|a2 r].
  - cbn [init_dio_rec bind]. eexists. split; [reflexivity|].
    cbn [dio_d dio_z0 dio_ds gall hd tl app zscale map length].
    repeat split; auto.
    intros k t Hl. destruct t as [|t0 [|]]; cbn in Hl; try lia.
    cbn [zip_with sol hd tl]. unfold row_value. cbn [zdot].
    f_equal; [ring|]. f_equal; ring.
  - destruct (IH d ltac:(congruence) Hg) as (e & Ee & Hdd & Hz & Hds & Hrow & Hval).
    rewrite Ee. cbn [bind].
    eexists. split; [reflexivity|]. cbn [dio_d dio_z0 dio_ds].
    split; [assumption|].
    destruct (dio_z0 e) as [|z00 z0]; [cbn in Hz; lia|].
    destruct (dio_ds e) as [|ds0 ds]; [cbn in Hds; lia|].
    inversion Hrow as [|? ? Hrow0 Hrows]; subst.
    cbn [hd tl app length] in *.
    split; [lia|]. split; [rewrite map_length; lia|].
    split.
    { constructor; [cbn [length]; rewrite zscale_length; lia|].
      constructor; [cbn [length]; rewrite zscale_length; lia|].
      apply Forall_map. eapply Forall_impl; [|exact Hrows].
      intros a Ha. cbn [length] in *. lia. }
    intros k t Hl. destruct t as [|t0 t]; cbn [length] in Hl; [lia|].
    specialize (Hval k t ltac:(lia)). cbn [zip_with] in *. cbn [hd tl].
    rewrite <- Hval. cbn [hd tl]. unfold row_value at 1 2. cbn [zdot].
    rewrite !zdot_scale_l.
    apply f_equal2; [unfold row_value; ring|]. apply f_equal2; [unfold row_value; ring|].
    clear. revert ds. induction z0 as [|z z0 IH]; intros ds; destruct ds as [|x ds]; try reflexivity.
    cbn [map zip_with]. rewrite IH. reflexivity.
Qed.

Lemma init_dio_rec_inv a0 rest e : init_dio_rec a0 rest = Ok (Some e) -> good a0 rest.
Proof.
  revert a0 e. induction rest as [|a1 r IH]; intros a0 e H; [exact I|].
  cbn [init_dio_rec] in H. cbn [good]. unfold eg.
  destruct (extgcd a0 a1) as [[d x0] y0]. cbn [fst]. unfold pydiv in H.
  destruct (d =? 0) eqn:Ed; [discriminate|]. cbn [bind] in H.
  split; [lia|].
  destruct (init_dio_rec d r) as [[e'|]|] eqn:E; cbn [bind] in H.
  - now apply (IH d e').
  - destruct r as [|a2 r]; [exact I|]. exfalso. cbn [init_dio_rec] in E.
    destruct (extgcd d a2) as [[d' x'] y']. unfold pydiv in E.
    destruct (d' =? 0); [discriminate|]. cbn [bind] in E.
    destruct (init_dio_rec d' r) as [|]; cbn [bind] in E; [|discriminate].
    destruct a as [?|]; discriminate.
  - discriminate.
Qed.

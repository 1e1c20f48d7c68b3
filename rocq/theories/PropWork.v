(** C107: how much work it takes to find an index. *)
From Verif Require Import Py SliceTools Basics Storage Spec SliceFacts IndexFacts ExtgcdFacts DioFacts ElimFacts MatrixFacts
  SolverFacts CloseFacts SolveFacts Repr ReprFacts ReduceFacts ViewFacts BuildFacts SparseFacts PropSolver PropSolveExact PropBounded Work.
From Coq Require Import List.
Import ListNotations.

(** * The recursion of extgcd *)

Lemma mod_abs a b : a <> 0 -> Z.abs (b mod a) < Z.abs a.
Proof. intros H. pose proof (Z.mod_pos_bound b a). pose proof (Z.mod_neg_bound b a). lia. Qed.
Lemma mod_twice a b : a <> 0 -> b mod a <> 0 -> 2 * Z.abs (a mod (b mod a)) < Z.abs a.
Proof.
  intros Ha Hr. set (r := b mod a) in *. assert (Hra : Z.abs r < Z.abs a) by (now apply mod_abs).
  assert (Hs : 0 < a * r).
  { pose proof (Z.mod_pos_bound b a). pose proof (Z.mod_neg_bound b a). fold r in H, H0. nia. }
  pose proof (Z.div_mod a r Hr) as E. pose proof (Z.mod_pos_bound a r). pose proof (Z.mod_neg_bound a r).
  set (q := a / r) in *. set (m := a mod r) in *. clearbody q m. clearbody r. clear b.
  assert (1 <= q) by nia. nia.
Qed.

Lemma gcd_depth_unique a b n : gcd_depth a b n -> forall m, gcd_depth a b m -> n = m.
Proof. induction 1 as [b|a b n Ha Hn IH]; intros m Hm; inversion Hm; subst; try congruence. f_equal. now apply IH. Qed.

(** The recursion of extgcd ends, after at most two calls for each binary digit of
    its first argument. *)
Theorem C107_gcd : forall a b,
  (exists n, gcd_depth a b n) /\ forall n, gcd_depth a b n -> (n <= 2 * halvings (Z.abs a) + 1)%nat.
Proof.
  assert (H : forall k a b, (halvings (Z.abs a) <= k)%nat -> exists n, gcd_depth a b n /\ (n <= 2 * halvings (Z.abs a) + 1)%nat).
  { induction k as [|k IH]; intros a b Hk.
    - assert (a = 0). { unfold halvings in Hk. destruct (Z.leb_spec (Z.abs a) 0); [lia|]. lia. } subst. exists 1%nat. split; [constructor|lia].
    - destruct (Z.eq_dec a 0) as [->|Ha]; [exists 1%nat; split; [constructor|lia]|].
      assert (H1 : (1 <= halvings (Z.abs a))%nat) by (unfold halvings; destruct (Z.leb_spec (Z.abs a) 0); lia).
      destruct (Z.eq_dec (b mod a) 0) as [Hr|Hr].
      + exists 2%nat. split; [|lia]. constructor; [exact Ha|]. rewrite Hr. constructor.
      + assert (Hh : (S (halvings (Z.abs (a mod (b mod a)))) <= halvings (Z.abs a))%nat).
        { eapply Nat.le_trans; [|apply (halvings_half (Z.abs a)); lia]. apply le_n_S, halvings_mono.
          pose proof (mod_twice a b Ha Hr). apply Z.div_le_lower_bound; lia. }
        destruct (IH (a mod (b mod a)) (b mod a) ltac:(lia)) as (n & Hn & Hb). exists (S (S n)). split; [|lia].
        constructor; [exact Ha|]. constructor; [exact Hr|exact Hn]. }
  intros a b. destruct (H _ a b (Nat.le_refl _)) as (n & Hn & Hb). split; [now exists n|].
  intros m Hm. now rewrite <- (gcd_depth_unique _ _ _ Hn _ Hm).
Qed.
Print Assumptions C107_gcd.
Example C107_gcd_case : gcd_depth 5 (-13) 4 /\ halvings (Z.abs 5) = 3%nat.
Proof. split; [|reflexivity]. repeat (constructor; [discriminate|]). constructor. Qed.

(** Preparing the search for [a0 :: rest] has no more calls on the stack than there
    are strides, and two for each digit of the greatest. *)
Definition greatest (a : list Z) : Z := fold_right Z.max 0 (map Z.abs a).
Theorem C107_stack : forall a, Forall (fun v => v <> 0) a ->
  (exists n, dio_depth a n) /\ forall n, dio_depth a n -> (n <= length a + 2 * halvings (greatest a) + 1)%nat.
Proof.
  assert (H : forall rest a0, a0 <> 0 -> Forall (fun v => v <> 0) rest ->
    exists n, dio_depth (a0 :: rest) n /\ (n <= S (length rest) + 2 * halvings (Z.abs a0) + 1)%nat).
  { induction rest as [|a1 r IH]; intros a0 Ha Hf.
    - exists 1%nat. split; [constructor; cbn; lia|lia].
    - inversion Hf as [|? ? H1 H2]; subst. destruct (extgcd a0 a1) as [[d x] y] eqn:E.
      assert (Hd : d <> 0) by (pose proof (eg_nonzero a0 a1 Ha) as X; unfold eg in X; rewrite E in X; exact X).
      destruct (IH d Hd H2) as (m & Hm & Bm). destruct (C107_gcd a0 a1) as [[n Hn] Bn]. specialize (Bn n Hn).
      exists (S (Nat.max n m)). split; [now apply (dio_call a0 a1 r d x y n m)|].
      assert (L : (halvings (Z.abs d) <= halvings (Z.abs a0))%nat).
      { apply halvings_mono. destruct (extgcd_spec _ _ _ _ _ E) as (_ & D1 & _). apply Z.divide_abs_l, Z.divide_abs_r in D1.
        apply Z.divide_pos_le; [lia|exact D1]. }
      cbn [length]. lia. }
  assert (D : forall a n, dio_depth a n -> forall m, dio_depth a m -> n = m).
  { induction 1 as [a Ha|a0 a1 r d x y n m E Hn Hm IH]; intros k Hk; inversion Hk; subst; try (cbn [length] in *; lia).
    match goal with X : extgcd a0 a1 = (?d', ?x', ?y') |- _ => rewrite E in X; injection X as <- <- <- end.
    f_equal. f_equal; [|now apply IH]. now apply (gcd_depth_unique a0 a1). }
  intros a Ha. destruct a as [|a0 rest].
  { split; [exists 1%nat; constructor; cbn; lia|]. intros n Hn. inversion Hn; subst. lia. }
  inversion Ha as [|? ? H1 H2]; subst. destruct (H rest a0 H1 H2) as (n & Hn & Bn). split; [now exists n|].
  intros m Hm. rewrite <- (D _ _ Hn _ Hm). eapply Nat.le_trans; [exact Bn|]. cbn [length].
  assert ((halvings (Z.abs a0) <= halvings (greatest (a0 :: rest)))%nat); [|lia].
  apply halvings_mono. unfold greatest. cbn [map fold_right]. lia.
Qed.
Print Assumptions C107_stack.

(** The strides of an array and all its slices are at most twice the number of
    elements, so for an array of 2^100 elements with 10 axes there are at most 215
    calls. *)
Lemma view_stride sh sh1 st1 : positive sh -> view_of sh sh1 st1 ->
  Forall (fun a => Z.abs a <= 2 * n_elements sh) st1.
Proof.
  intros Hp Hv. rewrite n_elements_product. pose proof (product_pos sh Hp) as P. set (B := product sh) in *.
  assert (F : forall sh1 st1, view_of sh sh1 st1 -> Forall2 (fun m a => (m - 1) * Z.abs a <= B) sh1 st1).
  { intros sh2 st2 H2. pose proof (view_sliced _ _ _ Hp H2) as Hs. fold B in Hs. clear H2 Hv sh1 st1.
    assert (HB : 0 < B) by exact P. clearbody B. clear P. induction Hs as [B|B B1 n s m sh1 st1 HB1 Hs0 Hm Hn Hms Hd Hs IH]; [constructor|].
    assert (n * B1 <= B) by (apply Z.divide_pos_le; assumption).
    constructor; [rewrite Z.abs_mul, (Z.abs_eq B1) by lia; nia|]. specialize (IH HB1).
    clear - IH H HB1 Hn. induction IH; constructor; [nia|assumption]. }
  induction Hv as [|sh1 st1 ix nix sh2 st2 off Hv IH Hp1 Hok En Ei].
  - rewrite c_strides_make. subst B. clear F. clear P. induction Hp as [|n sh Hn Hp IH]; cbn [make_strides product]; [constructor|].
    pose proof (product_pos sh Hp). assert (Hle : product sh <= n * product sh) by nia.
    constructor; [rewrite Z.abs_eq; lia|]. eapply Forall_impl; [|exact IH]. intros a X. cbv beta in *. lia.
  - specialize (F _ _ Hv). rewrite normalize_index_ok in En by assumption. injection En as <-.
    assert (Hl : length st1 = length sh1) by (symmetry; clear - F; induction F; cbn; congruence).
    rewrite index_strided_ok in Ei; auto; [|now apply norm_items_normal]. injection Ei as <- <- <-.
    pose proof (norm_items_normal (index_items ix) sh1 Hp1) as Hn. revert Hn. generalize (norm_items (index_items ix) sh1) as nix.
    clear - F IH Hp1. induction F as [|m a sh1 st1 Hma F IHF]; intros nix Hn; inversion Hn as [|i ? nix' ? Hi Hn']; subst; [constructor|].
    inversion IH as [|? ? H1 H2]; subst. inversion Hp1 as [|? ? H3 H4]; subst. specialize (IHF H4 H2 nix' Hn').
    destruct i as [z|r|]; cbn [n_strides normal_item] in *; [exact IHF| |now constructor].
    constructor; [|exact IHF]. rewrite Z.abs_mul.
    assert (Hr : Z.abs (r_step r) <= m) by (destruct Hi as [->|[Hi|Hi]]; cbn; lia).
    destruct (Z.eq_dec m 1) as [->|Hm]; nia.
Qed.
Theorem C107_stack_views : forall sh sh1 st1 n, positive sh -> view_of sh sh1 st1 -> dio_depth st1 n ->
  (n <= length st1 + 2 * halvings (n_elements sh) + 3)%nat.
Proof.
  intros sh sh1 st1 n Hp Hv Hn. pose proof (view_sliced _ _ _ Hp Hv) as Hs.
  destruct (C107_stack st1 (sliced_nonzero _ _ _ Hs)) as [_ H]. specialize (H n Hn). eapply Nat.le_trans; [exact H|].
  assert (Hpos : 0 < n_elements sh) by (rewrite n_elements_product; now apply product_pos).
  assert (G : greatest st1 <= 2 * n_elements sh).
  { pose proof (view_stride _ _ _ Hp Hv) as F. unfold greatest. clear - F Hpos. induction F; cbn [map fold_right]; lia. }
  assert ((halvings (greatest st1) <= S (halvings (n_elements sh)))%nat); [|lia].
  eapply Nat.le_trans; [apply halvings_mono; exact G|]. unfold halvings.
  destruct (Z.leb_spec (2 * n_elements sh) 0); [lia|]. destruct (Z.leb_spec (n_elements sh) 0); [lia|].
  rewrite Z.log2_double by lia. pose proof (Z.log2_nonneg (n_elements sh)). lia.
Qed.
Print Assumptions C107_stack_views.
Example C107_stack_case : view_of [2; 3; 4] [2; 3; 4] [12; 4; 1] /\ dio_depth [12; 4; 1] 5 /\ halvings 24 = 5%nat.
Proof.
  split; [apply (view_base [2; 3; 4])|]. split; [|reflexivity].
  apply (dio_call 12 4 [1] 4 0 1 3 4); [reflexivity| |].
  - repeat (constructor; [discriminate|]). constructor.
  - apply (dio_call 4 1 [] 1 0 1 3 1); [reflexivity| |constructor; cbn; lia].
    repeat (constructor; [discriminate|]). constructor.
Qed.

(** * The candidates of solve_index *)

Lemma try_counted_same k sd shape dts : snd (try_counted k sd shape dts) = try_dts k sd shape dts.
Proof.
  induction dts as [|dt r IH]; [reflexivity|]. cbn [try_counted try_dts].
  destruct (accum _ _ _ _ _ _ _) as [ix|e]; [|reflexivity]. cbn [bind]. destruct (in_shape ix shape) as [[|]|e]; try reflexivity.
  cbn [bind]. rewrite <- IH. now destruct (try_counted k sd shape r).
Qed.
Lemma solve_data_counted_same pos shape sd : snd (solve_data_counted pos shape sd) = solve_index_data pos shape sd.
Proof.
  unfold solve_data_counted, solve_index_data. destruct (match shape with [] => true | _ => _ end); [|reflexivity]. cbn [assert_ bind].
  destruct (pymod pos (sd_d sd)) as [m|e]; [|reflexivity]. cbn [bind]. destruct (negb (m =? 0)); [reflexivity|].
  destruct (pydiv pos (sd_d sd)) as [k|e]; [|reflexivity]. cbn [bind]. apply try_counted_same.
Qed.
Lemma slice_counted_loop_same {P} sh0 st0 sh sd off (l : list (list Z * P)) :
  snd (slice_counted_loop sh0 st0 sh sd off l) = slice_iad_loop sh0 st0 sh sd off l.
Proof.
  induction l as [|[ix p] r IH]; [reflexivity|]. cbn [slice_counted_loop slice_iad_loop].
  destruct (get_position ix sh0 st0) as [sp|e]; [|reflexivity]. cbn [bind].
  rewrite <- solve_data_counted_same. destruct (solve_data_counted (sp - off) sh sd) as [n [o|e]]; [|reflexivity]. cbn [bind snd].
  rewrite <- IH. destruct (slice_counted_loop sh0 st0 sh sd off r) as [m [rest|e]]; cbn [snd bind]; [now destruct o|reflexivity].
Qed.

(** Counting changes nothing. *)
Theorem C107_same : forall pos shape strides, snd (solve_counted pos shape strides) = solve_index pos shape strides.
Proof.
  intros. unfold solve_counted, solve_index. destruct (init_diophantine strides (Some shape)); [|reflexivity]. cbn [bind].
  apply solve_data_counted_same.
Qed.
Print Assumptions C107_same.
Theorem C107_same_slice : forall {P} sh0 (l : list (list Z * P)) shape strides off,
  snd (slice_counted sh0 l shape strides off) = slice_iad sh0 (Ok l) shape strides off.
Proof.
  intros. unfold slice_counted, slice_iad. destruct (init_diophantine strides (Some shape)); [|reflexivity]. cbn [bind].
  apply slice_counted_loop_same.
Qed.
Print Assumptions C107_same_slice.

Definition gcd_of (a : list Z) : Z := fold_right Z.gcd 0 a.
Lemma gall_gcd rest : forall a0, Z.abs (gall a0 rest) = gcd_of (a0 :: rest).
Proof.
  induction rest as [|a1 r IH]; intros a0; cbn [gall gcd_of fold_right]; [now rewrite Z.gcd_0_r|].
  rewrite IH. cbn [gcd_of fold_right]. unfold eg. pose proof (extgcd_gcd a0 a1) as G. destruct (extgcd a0 a1) as [[g x] y]. cbn [fst].
  rewrite <- (Z.gcd_abs_l g), G. symmetry. apply Z.gcd_assoc.
Qed.

(** The data of the search, for one axis too. *)
Definition ways (strides : list Z) : nat := 2 ^ (length strides - 1).
Lemma cart_two {A} (l : list A) : length (cart (map (fun _ => 2) l)) = (2 ^ length l)%nat.
Proof.
  induction l as [|x l IH]; [reflexivity|]. cbn [map cart]. change (zseq 2) with [0; 1]. cbn [flat_map].
  rewrite !app_length, !map_length, IH. cbn. lia.
Qed.
Lemma search_data strides shape : strides <> [] -> Forall (fun a => a <> 0) strides -> length shape = length strides ->
  exists sd, init_diophantine strides (Some shape) = Ok sd /\ sd_s sd <> None /\ sd_d sd <> 0
    /\ Z.abs (sd_d sd) = gcd_of strides /\ length (sd_zs sd) = (length strides - 1)%nat.
Proof.
  intros Hne Ha Hl. destruct strides as [|a0 rest]; [congruence|]. assert (Ha0 : a0 <> 0) by now inversion Ha.
  destruct rest as [|a1 r].
  - eexists. split; [reflexivity|]. cbn. rewrite Z.gcd_0_r. repeat split; auto. discriminate.
  - destruct (init_diophantine_ok a0 (a1 :: r) shape Ha ltac:(discriminate) ltac:(cbn [length] in *; lia)) as (sd & s & E & [Hd Hs Hz0 Hzs _ _ _ _ _ _ _]).
    exists sd. split; [exact E|]. destruct (good_nonzero a0 (a1 :: r) Ha0) as [_ Hg]. rewrite Hs, Hd, Hzs.
    split; [discriminate|]. split; [exact Hg|]. split; [apply gall_gcd|cbn [length]; lia].
Qed.
Lemma try_counted_bounds k sd shape dts o : snd (try_counted k sd shape dts) = Ok o ->
  match o with
  | Some _ => (1 <= fst (try_counted k sd shape dts) <= length dts)%nat
  | None => fst (try_counted k sd shape dts) = length dts
  end.
Proof.
  revert o. induction dts as [|dt r IH]; intros o; cbn [try_counted]; [intros [= <-]; reflexivity|].
  destruct (accum _ _ _ _ _ _ _) as [ix|e]; [|discriminate]. destruct (in_shape ix shape) as [[|]|e]; [intros [= <-]; cbn; lia| |discriminate].
  destruct (try_counted k sd shape r) as [n o']. cbn [snd fst length] in *. intros ->. specialize (IH o eq_refl). destruct o; lia.
Qed.
Lemma data_counted_bounds strides shape sd pos o : init_diophantine strides (Some shape) = Ok sd ->
  strides <> [] -> Forall (fun a => a <> 0) strides -> length shape = length strides ->
  snd (solve_data_counted pos shape sd) = Ok o ->
  match o with
  | Some _ => (1 <= fst (solve_data_counted pos shape sd) <= ways strides)%nat
  | None => fst (solve_data_counted pos shape sd) = if pos mod gcd_of strides =? 0 then ways strides else O
  end.
Proof.
  intros E Hne Ha Hl. destruct (search_data strides shape Hne Ha Hl) as (sd' & E' & Hs & Hd & Hg & Hz).
  rewrite E in E'. injection E' as <-. unfold solve_data_counted.
  assert (Ea : match shape, sd_s sd with [], _ => true | _, Some _ => true | _, None => false end = true) by (destruct shape, (sd_s sd); congruence).
  rewrite Ea. unfold pymod, pydiv. replace (sd_d sd =? 0) with false by lia.
  assert (Em : (pos mod gcd_of strides =? 0) = (pos mod sd_d sd =? 0)).
  { rewrite <- Hg. apply Bool.eq_iff_eq_true. rewrite !Z.eqb_eq. rewrite !Z.mod_divide by lia. apply Z.divide_abs_l. }
  rewrite Em. destruct (Z.eqb_spec (pos mod sd_d sd) 0) as [Z0|Z0]; cbn [negb].
  - intros H. pose proof (try_counted_bounds _ _ _ _ _ H) as B. rewrite cart_two, Hz in B. exact B.
  - intros [= <-]. reflexivity.
Qed.

(** With N axes at most 2^(N-1) candidates are formed.  When there is no solution
    this is exactly the number, unless the position is no multiple of the greatest
    common divisor of the strides. *)
Theorem C107_candidates : forall pos shape strides, strides <> [] -> Forall (fun a => a <> 0) strides -> length shape = length strides ->
  exists o, snd (solve_counted pos shape strides) = Ok o
    /\ match o with
       | Some _ => (1 <= fst (solve_counted pos shape strides) <= 2 ^ (length strides - 1))%nat
       | None => fst (solve_counted pos shape strides) = if pos mod gcd_of strides =? 0 then (2 ^ (length strides - 1))%nat else O
       end.
Proof.
  intros pos shape strides Hne Ha Hl. destruct (solve_index_total pos shape strides Hne Ha Hl) as [o Eo]. exists o.
  rewrite C107_same. split; [exact Eo|]. rewrite <- C107_same in Eo. revert Eo. unfold solve_counted.
  destruct (init_diophantine strides (Some shape)) as [sd|e] eqn:E; [|discriminate]. now apply data_counted_bounds.
Qed.
Print Assumptions C107_candidates.
Example C107_candidates_case : solve_counted 36 [3; 3; 2; 2] [12; 4; 2; 1] = (8%nat, Ok None)
  /\ solve_counted 35 [3; 3; 2; 2] [12; 4; 2; 1] = (1%nat, Ok (Some [2; 2; 1; 1])).
Proof. vm_compute. split; reflexivity. Qed.

(** * Arrays as built: the first candidate *)

(** The condition of [found] for the candidate without any offset. *)
Fixpoint first (a0 : Z) (rest e : list Z) : Prop :=
  match rest, e with
  | a1 :: r, e1 :: e' =>
      let '(d, _, y) := extgcd a0 a1 in
      0 <= a0 * (d * e1 + y * zdot r e') < a0 * a0 /\ first d r e'
  | _, _ => True
  end.
Lemma first_par a0 rest e : a0 <> 0 -> length e = length rest -> first a0 rest e ->
  forall i, (i < length rest)%nat -> - (a0 * a0) < a0 * nth i (par a0 rest (dvec a0 rest e)) 0 <= 0.
Proof.
  revert a0 e. induction rest as [|a1 r IH]; intros a0 e Ha Hl Hf i Hi; [cbn in Hi; lia|].
  destruct e as [|e1 e']; [discriminate|]. cbn [length] in *.
  destruct (extgcd a0 a1) as [[d x0] y0] eqn:E. cbn [first] in Hf. rewrite E in Hf. destruct Hf as [H1 Hf].
  assert (Hd : d <> 0).
  { pose proof (eg_nonzero a0 a1 Ha) as H. unfold eg in H. rewrite E in H. exact H. }
  rewrite (par_dvec a0 a1 r e1 e' d x0 y0 E Hd) by lia.
  destruct i as [|i]; cbn [nth]; [lia|]. unfold zscale.
  rewrite nth_indep with (d' := a0 / d * 0) by (rewrite map_length, par_length; lia).
  rewrite (map_nth (fun z => a0 / d * z)).
  specialize (IH d e' Hd ltac:(lia) Hf i ltac:(lia)).
  destruct (eg_quotients _ _ _ _ _ E Hd) as (E0 & _).
  set (q := a0 / d) in *. set (p := nth i _ 0) in *. clearbody q p.
  assert (q <> 0) by (intros ->; lia). subst a0. assert (0 < q * q) by nia.
  replace (d * q * (q * p)) with (q * q * (d * p)) by ring.
  replace (d * q * (d * q)) with (q * q * (d * d)) by ring. split; nia.
Qed.
Lemma floor_first D T n : 0 < D -> - D < D * T - n <= 0 -> n / D = T.
Proof. intros HD H. symmetry. apply (Z.div_unique n D T (n - D * T)); lia. Qed.
Lemma pick_first k D b s t : length b = length D -> length s = length D -> length t = length D ->
  Forall (fun d => 0 < d) D ->
  (forall i, (i < length D)%nat -> - nth i D 0 < nth i D 0 * nth i t 0 - (nth i b 0 * k + nth i s 0) <= 0) ->
  pick k D b s t = map (fun _ => 0) D.
Proof.
  revert b s t. induction D as [|Di D IH]; intros b s t Hb Hs Ht HP H;
    destruct b as [|bi b]; destruct s as [|si s]; destruct t as [|ti t]; try discriminate; [reflexivity|].
  cbn [length pick map] in *. inversion HP as [|? ? H1 H2]; subst. f_equal.
  - rewrite (floor_first Di ti); [lia|exact H1|exact (H 0%nat ltac:(lia))].
  - apply IH; try lia; [exact H2|]. intros i Hi. exact (H (S i) ltac:(lia)).
Qed.
Lemma cart_first {A} (l : list A) : exists r, cart (map (fun _ => 2) l) = map (fun _ => 0) l :: r.
Proof.
  induction l as [|x l [r IH]]; [now exists []|]. cbn [map cart]. change (zseq 2) with [0; 1]. cbn [flat_map]. rewrite IH.
  cbn [map app]. eexists. reflexivity.
Qed.

Lemma solve_first a0 rest shape x : rest <> [] -> Forall (fun a => a <> 0) (a0 :: rest) -> in_box x shape ->
  length shape = S (length rest) -> first a0 rest (tl (upper_gap shape x)) ->
  solve_counted (zdot (a0 :: rest) x) shape (a0 :: rest) = (1%nat, Ok (Some x)).
Proof.
  intros Hr Ha Hbox Hsh Hf. assert (Ha0 : a0 <> 0) by (now inversion Ha).
  destruct (good_nonzero a0 rest Ha0) as [Hg Hgall].
  destruct (init_diophantine_ok a0 rest shape Ha Hr ltac:(lia)) as (sd & s & Esd & Hsd).
  unfold solve_counted. rewrite Esd. unfold solve_data_counted.
  pose proof Hsd as [Hd Hs Hz0 Hzs Hzr HD Hb Hsl Hpos Hsol Hver].
  rewrite Hs. replace (match shape with [] => true | _ => true end) with true by (destruct shape; reflexivity).
  unfold pymod, pydiv. rewrite Hd. replace (gall a0 rest =? 0) with false by lia.
  set (pos := zdot (a0 :: rest) x).
  assert (Hdiv : (gall a0 rest | pos)) by (apply zdot_divide, gall_divides).
  replace (pos mod gall a0 rest =? 0) with true by (symmetry; apply Z.eqb_eq; apply Z.mod_divide; assumption).
  cbn [negb]. set (k := pos / gall a0 rest).
  assert (Epos : pos = gall a0 rest * k).
  { unfold k. destruct Hdiv as [q ->]. rewrite Z.div_mul by assumption. ring. }
  destruct (cart_first (sd_zs sd)) as [r ->]. pose proof (in_box_length _ _ Hbox) as Hxl.
  assert (Hel : length (tl (upper_gap shape x)) = length rest).
  { destruct shape as [|m0 ms]; [discriminate|]. destruct x as [|xh xt]; [discriminate|]. unfold upper_gap.
    cbn [map2 tl length] in *. rewrite map2_length. lia. }
  assert (Hp : pick k (sd_D sd) (sd_b sd) s (par a0 rest x) = map (fun _ => 0) (sd_zs sd)).
  { rewrite (map_const_length 0 (sd_zs sd) (sd_D sd)) by lia. apply pick_first; rewrite ?par_length; try lia; [exact Hpos|].
    intros i Hi. pose proof (vertex_gap a0 rest shape sd s x k Ha0 Hsh Hsd ltac:(lia) Epos i ltac:(lia)) as V.
    pose proof (first_par a0 rest _ Ha0 Hel Hf i ltac:(lia)) as F.
    assert (HDi : 0 < nth i (sd_D sd) 0) by (rewrite Forall_forall in Hpos; apply Hpos, nth_In; lia).
    set (Di := nth i (sd_D sd) 0) in *. set (p := nth i (par a0 rest (dvec _ _ _)) 0) in *.
    set (de := Di * _ - _) in *. clearbody Di p de. clear - Ha0 V HDi F.
    assert (0 < a0 * a0) by nia.
    assert (E : Di * (a0 * p) = (a0 * a0) * de) by (transitivity (a0 * (Di * p)); [ring|]; rewrite <- V; ring).
    split; nia. }
  cbn [try_counted]. rewrite start_index, Hs, accum_complete; try lia; [|rewrite map_length; lia|exact Hpos].
  rewrite <- Hp. destruct (pick_ok k (sd_D sd) (sd_b sd) s (par a0 rest x)) as [Ep _]; rewrite ?par_length; try lia.
  rewrite Ep, Hsol by apply par_length. rewrite sol_par; auto; try lia.
  rewrite (proj2 (in_shape_true x shape Hxl) Hbox). reflexivity.
Qed.

Lemma gap_box xt ms : in_box xt ms -> in_box (map2 (fun m v => m - 1 - v) ms xt) ms.
Proof. intros H. induction H as [|v m xt ms Hv H IH]; cbn [map2]; constructor; [lia|exact IH]. Qed.
Lemma first_built sh : positive sh -> forall e, in_box e sh -> first (product sh) (make_strides sh) e.
Proof.
  intros Hp. induction Hp as [|n sh Hn Hp IH]; intros e He; [exact I|].
  inversion He as [|e1 ? e' ? H1 He']; subst. cbn [make_strides product first].
  pose proof (product_pos sh Hp) as P. pose proof (contiguous_range sh e' He') as R.
  rewrite zdot_comm in R. specialize (IH e' He'). set (a := product sh) in *.
  assert (E : exists x, extgcd (n * a) a = (a, x, if n =? 1 then 0 else 1)).
  { destruct (Z.eqb_spec n 1) as [->|Hn1].
    - rewrite Z.mul_1_l. rewrite extgcd_eq. replace (a =? 0) with false by lia. rewrite Z.mod_same by lia. rewrite extgcd_0. eexists. reflexivity.
    - rewrite extgcd_eq. replace (n * a =? 0) with false by nia. rewrite (Z.mod_small a (n * a)) by nia. rewrite extgcd_eq.
      replace (a =? 0) with false by lia. rewrite Z.mod_mul by lia. rewrite extgcd_0. eexists. f_equal. ring. }
  destruct E as [x ->]. split; [|exact IH]. destruct (Z.eqb_spec n 1) as [->|Hn1]; [assert (e1 = 0) by lia; subst; nia|].
  assert (0 <= a * e1 + 1 * zdot (make_strides sh) e' < n * a) by nia. nia.
Qed.

(** The index of an element of an array as built is the first candidate. *)
Theorem C107_built : forall sh i, sh <> [] -> positive sh -> in_box i sh ->
  solve_counted (zdot i (c_strides sh)) sh (c_strides sh) = (1%nat, Ok (Some i)).
Proof.
  intros sh i Hne Hp Hi. rewrite c_strides_make, zdot_comm. destruct Hp as [|n sh Hn Hp]; [congruence|]. cbn [make_strides].
  destruct sh as [|n1 sh].
  - inversion Hi as [|v ? xs ? Hv Hxs]; subst. inversion Hxs; subst. cbn [make_strides zdot product].
    unfold solve_counted. cbn [init_diophantine]. unfold solve_data_counted. cbn [sd_s sd_d]. unfold pymod, pydiv. cbn [Z.eqb].
    rewrite Z.mod_1_r. cbn [Z.eqb negb]. rewrite Z.div_1_r. cbn [map cart sd_zs try_counted accum sd_z0 axpy map2 in_shape].
    replace ((1 * v + 0) * 1 + 0) with v by lia. replace ((0 <=? v) && (v <? n)) with true by lia. reflexivity.
  - apply solve_first; [cbn; discriminate| |exact Hi|cbn [length]; now rewrite make_strides_length|].
    + apply (sliced_nonzero (product (n :: n1 :: sh)) (n :: n1 :: sh)). apply (sliced_contiguous (n :: n1 :: sh)). now constructor.
    + inversion Hi as [|v ? xs ? Hv Hxs]; subst. unfold upper_gap. cbn [map2 tl]. apply first_built; [exact Hp|]. exact (gap_box xs (n1 :: sh) Hxs).
Qed.
Print Assumptions C107_built.

(** * Slices of sparse arrays *)

(** A stored element that a slice leaves out although its position fits. *)
Definition left_out (ix : pyindex) (sh st : list Z) (off : Z) (i : list Z) : Prop :=
  ~ hit ix sh i /\ (zdot i (c_strides sh) - off) mod gcd_of st = 0.

Lemma loop_counted {P} sh0 sh st sd off (l : list (list Z * P)) L : init_diophantine st (Some sh) = Ok sd ->
  st <> [] -> Forall (fun a => a <> 0) st -> length sh = length st -> Forall (fun e => in_box (fst e) sh0) l ->
  snd (slice_counted_loop sh0 (make_strides sh0) sh sd off l) = Ok L ->
  (fst (slice_counted_loop sh0 (make_strides sh0) sh sd off l) <= length l * ways st)%nat
  /\ forall (out : list Z -> bool), (forall i, out i = true -> in_box i sh0 ->
       snd (solve_data_counted (zdot i (make_strides sh0) - off) sh sd) = Ok None
       /\ (zdot i (make_strides sh0) - off) mod gcd_of st = 0) ->
     (length (filter (fun e => out (fst e)) l) * ways st <= fst (slice_counted_loop sh0 (make_strides sh0) sh sd off l))%nat.
Proof.
  intros E Hne Ha Hl. revert L. induction l as [|[i p] l IH]; intros L HF; [cbn; intros _; split; [lia|intros; lia]|].
  inversion HF as [|? ? H1 H2]; subst. cbn [fst] in H1. cbn [slice_counted_loop].
  rewrite get_position_ok by (rewrite ?make_strides_length; auto; now apply in_box_length).
  pose proof (data_counted_bounds st sh sd (zdot i (make_strides sh0) - off)) as B.
  destruct (solve_data_counted (zdot i (make_strides sh0) - off) sh sd) as [n [o|e]] eqn:Es; [|discriminate].
  specialize (B o E Hne Ha Hl eq_refl). cbn [fst] in B.
  destruct (slice_counted_loop sh0 (make_strides sh0) sh sd off l) as [m [rest|e]] eqn:El; [|discriminate]. cbn [fst snd] in *.
  intros _. destruct (IH rest H2 eq_refl) as [IH1 IH2].
  assert (Bn : (n <= ways st)%nat) by (destruct o; [lia|]; destruct (_ =? 0); lia).
  cbn [length]. split; [nia|]. intros out Ho. specialize (IH2 out Ho). cbn [filter fst]. destruct (out i) eqn:Eo; [|lia].
  destruct (Ho i Eo H1) as [X1 X2]. rewrite Es in X1. cbn [snd] in X1. injection X1 as ->.
  rewrite X2 in B. cbn [Z.eqb] in B. cbn [length]. lia.
Qed.

(** Taking a slice of a sparse array with n stored elements forms at most
    n * 2^(N-1) candidates, N the number of axes of the slice, and at least 2^(N-1)
    for every stored element that it leaves out. *)
Theorem C107_slices : forall h s E ix, entries h s E -> positive (shape_of s) -> ok_index ix (shape_of s) ->
  slice_shape ix (shape_of s) <> [] ->
  exists nix st off L,
    normalize_index ix (shape_of s) = Ok nix
    /\ index_strided nix (shape_of s) (make_strides (shape_of s)) 0 = Ok (slice_shape ix (shape_of s), st, off)
    /\ sparse_iad h s = Ok L /\ map fst L = map fst E
    /\ let work := slice_counted (shape_of s) L (slice_shape ix (shape_of s)) st off in
       snd work = slice_iad (shape_of s) (sparse_iad h s) (slice_shape ix (shape_of s)) st off
       /\ (fst work <= length E * 2 ^ (length st - 1))%nat
       /\ forall out, (forall i, out i = true -> left_out ix (shape_of s) st off i) ->
            (length (filter out (map fst E)) * 2 ^ (length st - 1) <= fst work)%nat.
Proof.
  intros h s E ix HE Hp Hok Hne. set (sh := shape_of s) in *.
  destruct (index_strided_full ix sh (make_strides sh) 0 Hp Hok (make_strides_length sh)) as (nix & st & off & E1 & E2 & E3 & E4).
  exists nix, st, off, (numbered E). split; [exact E1|]. split; [exact E2|]. rewrite (sparse_iad_ok h s E HE Hp).
  split; [reflexivity|]. split; [apply numbered_fst|]. cbn zeta. split; [apply C107_same_slice|].
  assert (Hv : sliced (product sh) (slice_shape ix sh) st).
  { apply view_sliced; [exact Hp|]. apply (view_slice sh sh (c_strides sh) ix nix _ _ off); auto using view_base. }
  assert (Hst : st <> []) by (intros E0; rewrite E0 in E3; symmetry in E3; apply length_zero_iff_nil in E3; contradiction).
  assert (Hbox : Forall (fun e => in_box (fst e) sh) (numbered E)).
  { subst sh. destruct s; try contradiction; cbn [entries] in HE; destruct HE as (_ & _ & Ho & _); now apply numbered_in_box. }
  destruct (search_data st (slice_shape ix sh) Hst (sliced_nonzero _ _ _ Hv) (sliced_length _ _ _ Hv)) as (sd & Esd & _).
  pose proof (C107_same_slice sh (numbered E) (slice_shape ix sh) st off) as Hsame.
  assert (HL : exists L, slice_iad sh (Ok (numbered E)) (slice_shape ix sh) st off = Ok L).
  { rewrite normalize_index_ok in E1 by assumption. injection E1 as <-.
    rewrite index_strided_ok in E2 by (auto using norm_items_normal, make_strides_length). injection E2 as E5 E6 E7.
    destruct (slice_iad_ok sh (numbered E) (norm_items (index_items ix) sh) Hp (norm_items_normal _ _ Hp)) as (L & EL & _); auto.
    - rewrite E5. exact Hne.
    - rewrite numbered_fst. subst sh. destruct s; try contradiction; cbn [entries] in HE; destruct HE as (_ & _ & Ho & _); eapply ordered_NoDup; eassumption.
    - exists L. rewrite <- EL, E5, E6. f_equal. lia. }
  destruct HL as [L EL]. rewrite EL in Hsame. revert Hsame. unfold slice_counted. rewrite Esd. intros Hsame.
  destruct (loop_counted sh (slice_shape ix sh) st sd off (numbered E) L Esd Hst (sliced_nonzero _ _ _ Hv) (sliced_length _ _ _ Hv)) as [B1 B2];
    [exact Hbox|exact Hsame|].
  assert (Hlen : length (numbered E) = length E) by (rewrite <- (map_length fst), numbered_fst; apply map_length).
  split; [now rewrite Hlen in B1|]. intros out Ho.
  assert (F : length (filter out (map fst E)) = length (filter (fun e : list Z * Z => out (fst e)) (numbered E))).
  { rewrite <- numbered_fst. generalize (numbered E). intros l. induction l as [|e l IH]; [reflexivity|].
    cbn [map filter]. destruct (out (fst e)); cbn [length]; lia. }
  rewrite F. apply B2. intros i Hi Hli. destruct (Ho i Hi) as [O1 O2]. rewrite c_strides_make in O2. split; [|exact O2].
  rewrite solve_data_counted_same. destruct (solve_sliced (product sh) (slice_shape ix sh) st (zdot i (make_strides sh) - off) Hv Hne) as (r & Er & Hr).
  unfold solve_index in Er. rewrite Esd in Er. cbn [bind] in Er. rewrite Er. destruct r as [j|]; [|reflexivity]. exfalso.
  destruct (proj1 (Hr j) eq_refl) as [Hj Hz]. apply O1. exists j. split; [exact Hj|]. destruct (E4 j Hj) as [Hb Hq].
  apply (sliced_unique (product sh) sh (make_strides sh) _ _ (sliced_contiguous sh Hp) Hb Hli). lia.
Qed.
Print Assumptions C107_slices.

(** So the work is not proportional to what is stored: s[0:1] of any sparse array
    with N axes takes 2^(N-1) candidates for every stored element outside of the
    first row. *)
Definition first_row : pyindex := XItem (ISlice (Sl (Some 0) (Some 1) None)).
Definition other_row (i : list Z) : bool := match i with x :: _ => negb (x =? 0) | [] => false end.
Lemma gcd_built sh : sh <> [] -> gcd_of (make_strides sh) = 1.
Proof.
  induction sh as [|n sh IH]; [congruence|]. intros _. cbn [make_strides gcd_of fold_right]. destruct sh as [|n1 sh]; [reflexivity|].
  change (fold_right Z.gcd 0 (make_strides (n1 :: sh))) with (gcd_of (make_strides (n1 :: sh))). rewrite IH by discriminate. apply Z.gcd_1_r.
Qed.
Theorem C107_proportional_refuted : forall h s E, entries h s E -> positive (shape_of s) ->
  exists nix st off L,
    normalize_index first_row (shape_of s) = Ok nix
    /\ index_strided nix (shape_of s) (make_strides (shape_of s)) 0 = Ok (slice_shape first_row (shape_of s), st, off)
    /\ sparse_iad h s = Ok L
    /\ (length (filter other_row (map fst E)) * 2 ^ (length (shape_of s) - 1)
        <= fst (slice_counted (shape_of s) L (slice_shape first_row (shape_of s)) st off))%nat.
Proof.
  intros h s E HE Hp. assert (Hne : shape_of s <> []).
  { destruct s; try contradiction; cbn [entries shape_of] in *; destruct HE as (_ & H & _); auto. intros H0. rewrite H0 in H. discriminate. }
  destruct (shape_of s) as [|n sh] eqn:Es; [congruence|]. inversion Hp as [|? ? Hn Hp']; subst. rewrite <- Es in *.
  assert (Hok : ok_index first_row (shape_of s)).
  { rewrite Es. split; [constructor; [discriminate|constructor]|right; cbn; lia]. }
  assert (Hs : slice_shape first_row (shape_of s) <> []) by (rewrite Es; discriminate).
  destruct (C107_slices h s E first_row HE Hp Hok Hs) as (nix & st & off & L & E1 & E2 & E3 & _ & _ & _ & H).
  exists nix, st, off, L. split; [exact E1|]. split; [exact E2|]. split; [exact E3|].
  assert (Er : reduced (Sl (Some 0) (Some 1) None) n = RSl 0 1 1).
  { unfold reduced. cbn. replace (0 <? - n) with false by lia. replace (n <? 0) with false by lia.
    replace (n <? 1) with false by lia. replace (1 <? - n) with false by lia. reflexivity. }
  assert (Est : st = make_strides (shape_of s)).
  { rewrite normalize_index_ok in E1 by assumption. injection E1 as <-.
    rewrite index_strided_ok in E2 by (auto using norm_items_normal, make_strides_length). injection E2 as _ E6 _. rewrite <- E6, Es.
    cbn [first_row index_items norm_items make_strides n_strides]. rewrite Er. cbn [r_step]. rewrite Z.mul_1_r. f_equal.
    rewrite norm_items_nil. clear. induction sh as [|m sh IH]; [reflexivity|]. cbn [make_strides map n_strides]. now rewrite IH. }
  rewrite <- (make_strides_length (shape_of s)), <- Est. apply H. intros i Hi. split.
  - intros (j & Hj & Ej). rewrite Es in Hj, Ej.
    assert (Esel : selected (Sl (Some 0) (Some 1) None) n = [0]).
    { unfold selected, sp_start, sp_stop, sp_adjust, sp_step. cbn [sl_start sl_stop sl_step]. cbn [Z.ltb Z.compare].
      replace (n <=? 0) with false by lia. replace (sp_count _ _ 1) with 1; [reflexivity|].
      unfold sp_count. cbn [Z.ltb Z.compare]. destruct (Z.leb_spec n 1); [assert (n = 1) by lia; subst|]; reflexivity. }
    unfold slice_shape, source_index in *. cbn [first_row index_items items_shape items_source] in *. rewrite Esel in *.
    inversion Hj as [|x ? j' ? Hx Hj']; subst j. change (zlen [0]) with 1 in Hx. assert (x = 0) by lia. subst x.
    rewrite <- Ej in Hi. discriminate Hi.
  - rewrite Est, gcd_built by exact Hne. apply Z.mod_1_r.
Qed.
Print Assumptions C107_proportional_refuted.

(** One stored element, in the last row of a 2 x 2 x 2 array: four candidates. *)
Example C107_case :
  let h := [[VInt 5]; [VInt 1; VInt 0; VInt 0]] in
  let s := SCOO [2; 2; 2] (Str [3; 1] [1; 1] (Buf 3 0 1 VNone)) (Buf 1 0 0 VNone) in
  entries h s [([1; 0; 0], VInt 5)] /\ filter other_row [[1; 0; 0]] = [[1; 0; 0]]
  /\ fst (slice_counted [2; 2; 2] [([1; 0; 0], 0)] [1; 2; 2] [4; 2; 1] 0) = 4%nat.
Proof.
  cbn zeta. split; [|split; [reflexivity|vm_compute; reflexivity]].
  cbn [entries]. split; [repeat constructor; lia|]. split; [discriminate|]. split; [split; repeat constructor; lia|].
  split; [exists [VInt 5]; repeat split; cbn; lia|]. split; [reflexivity|]. split; [reflexivity|].
  split; [exists [VInt 1; VInt 0; VInt 0]; repeat split; cbn; lia|]. split; [discriminate|reflexivity].
Qed.

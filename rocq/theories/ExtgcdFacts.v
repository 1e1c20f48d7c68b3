(** Lemmas on extgcd. *)
From Verif Require Import Py SliceTools.

(** * The recursion equation of the source *)
Definition bits (a : Z) : nat := if a =? 0 then 0%nat else Z.to_nat (Z.log2 (Z.abs a) + 1).

Lemma bits_bound a n : Z.abs a < 2 ^ Z.of_nat n -> (bits a <= n)%nat.
Proof.
  intros H. unfold bits. destruct (a =? 0) eqn:E; [lia|].
  assert (Hl : Z.log2 (Z.abs a) < Z.of_nat n) by (apply Z.log2_lt_pow2; lia).
  assert (0 <= Z.log2 (Z.abs a)) by apply Z.log2_nonneg. lia.
Qed.

Lemma bits_lt a : Z.abs a < 2 ^ Z.of_nat (bits a).
Proof.
  unfold bits. destruct (a =? 0) eqn:E.
  - apply Z.eqb_eq in E. subst. reflexivity.
  - assert (0 <= Z.log2 (Z.abs a)) by apply Z.log2_nonneg.
    rewrite Z2Nat.id by lia. apply Z.log2_spec. lia.
Qed.

(** Floor remainder: sign of the divisor, smaller in absolute value. *)
Lemma mod_sign a b : a <> 0 -> b mod a = 0 \/ (0 < (b mod a) * a /\ Z.abs (b mod a) < Z.abs a).
Proof.
  intros Ha. destruct (Z.lt_trichotomy a 0) as [H|[H|H]]; [|lia|].
  - pose proof (Z.mod_neg_bound b a H).
    destruct (Z.eq_dec (b mod a) 0); [now left|right]. nia.
  - pose proof (Z.mod_pos_bound b a H).
    destruct (Z.eq_dec (b mod a) 0); [now left|right]. nia.
Qed.

Lemma mod_abs_lt a b : a <> 0 -> Z.abs (b mod a) < Z.abs a.
Proof. intros Ha. destruct (mod_sign a b Ha) as [->|[]]; lia. Qed.

(** Same signs: |b| = q*|a| + |b mod a| with the floor quotient q. *)
Lemma div_mod_same_sign a b : 0 < a * b ->
  Z.abs b = (b / a) * Z.abs a + Z.abs (b mod a) /\ 0 <= b / a.
Proof.
  intros H. assert (Ha : a <> 0) by nia.
  pose proof (Z.div_mod b a Ha) as E.
  destruct (Z.lt_trichotomy a 0) as [Hs|[Hs|Hs]]; [|lia|].
  - pose proof (Z.mod_neg_bound b a Hs).
    assert (0 <= b / a) by nia.
    split; [|assumption]. rewrite (Z.abs_neq a), (Z.abs_neq b), (Z.abs_neq (b mod a)) by nia. lia.
  - pose proof (Z.mod_pos_bound b a Hs).
    assert (0 <= b / a) by nia.
    split; [|assumption]. rewrite (Z.abs_eq a), (Z.abs_eq b), (Z.abs_eq (b mod a)) by nia. lia.
Qed.

Lemma extgcd_fuel_stable : forall (n : nat) (a b : Z) (f f' : nat),
  Z.abs a < 2 ^ Z.of_nat n -> (2 * n <= f)%nat -> (2 * n <= f')%nat ->
  extgcd_fuel f a b = extgcd_fuel f' a b.
Proof.
  induction n as [|n IH]; intros a b f f' Ha Hf Hf'.
  - assert (a = 0) by (change (2 ^ Z.of_nat 0) with 1 in Ha; lia). subst a.
    destruct f, f'; reflexivity.
  - destruct f as [|[|f]]; try lia. destruct f' as [|[|f']]; try lia.
    cbn [extgcd_fuel]. destruct (a =? 0) eqn:Ea; [reflexivity|].
    destruct (b mod a =? 0) eqn:Er; [reflexivity|].
    rewrite (IH (a mod (b mod a)) (b mod a) f f'); [reflexivity| |lia|lia].
    set (r := b mod a) in *.
    destruct (mod_sign a b ltac:(lia)) as [H0|[Hs Hl]]; [fold r in H0; lia|]. fold r in Hs, Hl.
    destruct (div_mod_same_sign r a ltac:(lia)) as [E Hq].
    assert (Z.abs (a mod r) < Z.abs r) by (apply mod_abs_lt; lia).
    assert (1 <= a / r).
    { assert (~ a / r = 0); [|lia]. intros H1. rewrite H1 in E. lia. }
    rewrite Nat2Z.inj_succ, Z.pow_succ_r in Ha by lia. nia.
Qed.

Lemma extgcd_fuel_S f a b :
  extgcd_fuel (S f) a b =
  if a =? 0 then (b, 0, 1)
  else let '(g, x1, y1) := extgcd_fuel f (b mod a) a in (g, y1 - (b / a) * x1, x1).
Proof. reflexivity. Qed.

Lemma extgcd_eq a b :
  extgcd a b =
  if a =? 0 then (b, 0, 1)
  else let '(g, x1, y1) := extgcd (b mod a) a in (g, y1 - (b / a) * x1, x1).
Proof.
  unfold extgcd at 1. rewrite extgcd_fuel_S. destruct (a =? 0) eqn:E; [reflexivity|].
  unfold extgcd.
  set (r := b mod a).
  rewrite (extgcd_fuel_stable (bits r) r a (S (2 * Z.to_nat (Z.log2 (Z.abs a) + 1))) (S (S (2 * Z.to_nat (Z.log2 (Z.abs r) + 1)))));
    [reflexivity| | |].
  - apply bits_lt.
  - assert (Z.abs r < Z.abs a) by (apply mod_abs_lt; lia).
    unfold bits. destruct (r =? 0) eqn:Er; [lia|].
    assert (Z.log2 (Z.abs r) <= Z.log2 (Z.abs a)) by (apply Z.log2_le_mono; lia).
    assert (0 <= Z.log2 (Z.abs r)) by apply Z.log2_nonneg. lia.
  - unfold bits. destruct (r =? 0); lia.
Qed.

Lemma extgcd_0 b : extgcd 0 b = (b, 0, 1).
Proof. now rewrite extgcd_eq. Qed.

(** * Induction principle *)
Lemma extgcd_ind (P : Z -> Z -> Z * Z * Z -> Prop) :
  (forall b, P 0 b (b, 0, 1)) ->
  (forall a b g x y, a <> 0 -> extgcd (b mod a) a = (g, x, y) -> P (b mod a) a (g, x, y) ->
                     P a b (g, y - (b / a) * x, x)) ->
  forall a b, P a b (extgcd a b).
Proof.
  intros H0 HS a. remember (Z.abs_nat a) as n eqn:En. revert a En.
  induction n as [n IH] using (well_founded_induction lt_wf). intros a En b.
  rewrite extgcd_eq. destruct (a =? 0) eqn:Ea.
  - apply Z.eqb_eq in Ea. subst a. apply H0.
  - assert (Ha : a <> 0) by lia.
    assert (Hlt : (Z.abs_nat (b mod a) < n)%nat).
    { pose proof (mod_abs_lt a b Ha). lia. }
    specialize (IH _ Hlt (b mod a) eq_refl a).
    destruct (extgcd (b mod a) a) as [[g x] y] eqn:E. now apply HS.
Qed.

(** * Bezout, divisibility, sign, bounds *)
Lemma extgcd_bezout a b : let '(g, x, y) := extgcd a b in a * x + b * y = g.
Proof.
  apply (extgcd_ind (fun a b t => let '(g, x, y) := t in a * x + b * y = g)); clear a b.
  - intros b. lia.
  - intros a b g x y Ha _ H. pose proof (Z.div_mod b a Ha) as E.
    replace (a * (y - b / a * x) + b * x) with (a * y + (b - a * (b / a)) * x) by ring.
    replace (b - a * (b / a)) with (b mod a) by lia. lia.
Qed.

Lemma extgcd_divides a b : let '(g, x, y) := extgcd a b in (g | a) /\ (g | b).
Proof.
  apply (extgcd_ind (fun a b t => let '(g, x, y) := t in (g | a) /\ (g | b))); clear a b.
  - intros b. split; [exists 0; lia|exists 1; lia].
  - intros a b g x y Ha _ [H1 H2]. split; [assumption|].
    rewrite (Z.div_mod b a Ha). apply Z.divide_add_r; [|assumption].
    now apply Z.divide_mul_l.
Qed.

Lemma extgcd_sign a b : let '(g, x, y) := extgcd a b in (a <> 0 -> 0 < a * g) /\ (a = 0 -> g = b).
Proof.
  apply (extgcd_ind (fun a b t => let '(g, x, y) := t in
            (a <> 0 -> 0 < a * g) /\ (a = 0 -> g = b))); clear a b.
  - intros b. lia.
  - intros a b g x y Ha _ [H1 H2]. split; [|lia]. intros _.
    destruct (mod_sign a b Ha) as [H0|[Hs _]].
    + rewrite (H2 H0). nia.
    + assert (Hr : b mod a <> 0) by nia. specialize (H1 Hr). nia.
Qed.

Lemma extgcd_gcd a b : let '(g, x, y) := extgcd a b in Z.abs g = Z.gcd a b.
Proof.
  pose proof (extgcd_bezout a b) as HB. pose proof (extgcd_divides a b) as HD.
  destruct (extgcd a b) as [[g x] y]. destruct HD as [D1 D2].
  symmetry. rewrite <- (Z.gcd_unique a b (Z.abs g)).
  - reflexivity.
  - lia.
  - now apply Z.divide_abs_l.
  - now apply Z.divide_abs_l.
  - intros q Hq1 Hq2. apply Z.divide_abs_r. rewrite <- HB.
    apply Z.divide_add_r; now apply Z.divide_mul_l.
Qed.

Lemma extgcd_bounds_aux a b : let '(g, x, y) := extgcd a b in
  0 < a * b -> Z.abs a < Z.abs b ->
  2 * Z.abs g * Z.abs x <= Z.abs b /\ 2 * Z.abs g * Z.abs y <= Z.abs a.
Proof.
  apply (extgcd_ind (fun a b t => let '(g, x, y) := t in
     0 < a * b -> Z.abs a < Z.abs b ->
     2 * Z.abs g * Z.abs x <= Z.abs b /\ 2 * Z.abs g * Z.abs y <= Z.abs a)); clear a b.
  - intros b H. lia.
  - intros a b g x y Ha E IH Hs Hl.
    destruct (div_mod_same_sign a b Hs) as [Eb Hq].
    destruct (mod_sign a b Ha) as [H0|[Hs' Hl']].
    + rewrite H0 in E. rewrite extgcd_0 in E. injection E as <- <- <-.
      rewrite H0 in Eb. rewrite Z.mul_0_r, Z.sub_0_r. change (Z.abs 1) with 1.
      change (Z.abs 0) with 0 in *.
      assert (2 <= b / a) by nia. nia.
    + destruct (IH Hs' Hl') as [Hx Hy]. split; [|lia].
      assert (Z.abs (y - b / a * x) <= Z.abs y + (b / a) * Z.abs x).
      { assert (Z.abs (b / a * x) = (b / a) * Z.abs x) by (rewrite Z.abs_mul; lia). lia. }
      assert (0 <= Z.abs g) by lia.
      assert (2 * Z.abs g * Z.abs (y - b / a * x)
              <= 2 * Z.abs g * Z.abs y + (b / a) * (2 * Z.abs g * Z.abs x)) by nia.
      nia.
Qed.

(** The Bezout coefficient of b is at most half of |a/g|, and 0 if a divides b. *)
Lemma extgcd_y_bound a b : a <> 0 -> let '(g, x, y) := extgcd a b in
  2 * Z.abs g * Z.abs y <= Z.abs a /\ (b mod a = 0 -> x = 1 /\ y = 0 /\ g = a).
Proof.
  intros Ha. rewrite extgcd_eq. replace (a =? 0) with false by lia.
  pose proof (extgcd_bounds_aux (b mod a) a) as HB.
  destruct (mod_sign a b Ha) as [H0|[Hs Hl]].
  - rewrite H0, extgcd_0. change (Z.abs 0) with 0. repeat split; lia.
  - destruct (extgcd (b mod a) a) as [[g x] y]. destruct (HB Hs Hl) as [H1 H2].
    split; [lia|]. intros H0. rewrite H0 in Hs. lia.
Qed.

(** Everything about one call, with the result named. *)
Lemma extgcd_spec a b g x y : extgcd a b = (g, x, y) ->
  a * x + b * y = g /\ (g | a) /\ (g | b) /\ Z.abs g = Z.gcd a b
  /\ (a <> 0 -> 0 < a * g) /\ (a = 0 -> g = b)
  /\ (a <> 0 -> 2 * Z.abs g * Z.abs y <= Z.abs a)
  /\ (a <> 0 -> b mod a = 0 -> x = 1 /\ y = 0 /\ g = a).
Proof.
  intros E.
  pose proof (extgcd_bezout a b) as H1. pose proof (extgcd_divides a b) as H2.
  pose proof (extgcd_gcd a b) as H3. pose proof (extgcd_sign a b) as H4.
  pose proof (extgcd_y_bound a b) as H5. rewrite E in *.
  repeat split; try tauto; intros; apply H5; assumption.
Qed.

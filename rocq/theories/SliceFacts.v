(** Lemmas on slices and index normalisation. *)
From Verif Require Import Py SliceTools Spec.

(** * Ranges *)
Lemma zseq_length n : zlen (zseq n) = Z.max 0 n.
Proof. unfold zlen, zseq. rewrite map_length, seq_length. lia. Qed.

Lemma zseq_length_nat n : length (zseq n) = Z.to_nat n.
Proof. unfold zseq. now rewrite map_length, seq_length. Qed.

Lemma zseq_nonpos n : n <= 0 -> zseq n = [].
Proof. intros H. unfold zseq. replace (Z.to_nat n) with 0%nat by lia. reflexivity. Qed.

Lemma In_zseq n x : In x (zseq n) <-> 0 <= x < n.
Proof.
  unfold zseq. rewrite in_map_iff. split.
  - intros (k & <- & Hk). apply in_seq in Hk. lia.
  - intros H. exists (Z.to_nat x). split; [lia|]. apply in_seq. lia.
Qed.

Lemma nth_zseq n i d : 0 <= i < n -> nth (Z.to_nat i) (zseq n) d = i.
Proof.
  intros H. unfold zseq.
  rewrite nth_indep with (d' := Z.of_nat 0) by (rewrite map_length, seq_length; lia).
  rewrite map_nth, seq_nth by lia. lia.
Qed.

Lemma zseq_map_ext {B} (f g : Z -> B) n :
  (forall i, 0 <= i < n -> f i = g i) -> map f (zseq n) = map g (zseq n).
Proof. intros H. apply map_ext_in. intros i Hi. apply H. now apply In_zseq. Qed.

Lemma zseq_S n : 0 <= n -> zseq (n + 1) = zseq n ++ [n].
Proof.
  intros H. unfold zseq.
  replace (Z.to_nat (n + 1)) with (S (Z.to_nat n)) by lia.
  rewrite seq_S, map_app. simpl. repeat f_equal. lia.
Qed.

Lemma zseq_cons n : 0 < n -> zseq n = 0 :: map (fun i => i + 1) (zseq (n - 1)).
Proof.
  intros H. unfold zseq.
  replace (Z.to_nat n) with (S (Z.to_nat (n - 1))) by lia.
  cbn [seq map]. f_equal. rewrite <- seq_shift, !map_map.
  apply map_ext. intros k. lia.
Qed.

Lemma zlen_nonneg {A} (l : list A) : 0 <= zlen l.
Proof. unfold zlen. lia. Qed.

Lemma zlen_map {A B} (f : A -> B) l : zlen (map f l) = zlen l.
Proof. unfold zlen. now rewrite map_length. Qed.

Lemma zlen_app {A} (l m : list A) : zlen (l ++ m) = zlen l + zlen m.
Proof. unfold zlen. rewrite app_length. lia. Qed.

Lemma zlen_cons {A} (x : A) l : zlen (x :: l) = 1 + zlen l.
Proof. unfold zlen. cbn [length]. lia. Qed.

(** * Counting *)
Lemma sp_count_nonneg a b k : k <> 0 -> 0 <= sp_count a b k.
Proof.
  intros Hk. unfold sp_count.
  destruct (k <? 0) eqn:E1.
  - destruct (b <? a) eqn:E2; [|lia].
    assert (0 <= (a - b - 1) / - k) by (apply Z.div_pos; lia). lia.
  - destruct (a <? b) eqn:E2; [|lia].
    assert (0 <= (b - a - 1) / k) by (apply Z.div_pos; lia). lia.
Qed.

Lemma selected_length s n : sp_step s <> 0 ->
  zlen (selected s n) = sp_count (sp_start s n) (sp_stop s n) (sp_step s).
Proof.
  intros H. unfold selected. rewrite zlen_map, zseq_length.
  pose proof (sp_count_nonneg (sp_start s n) (sp_stop s n) (sp_step s) H). lia.
Qed.

(** The three shapes of the result of [reduced]. *)
Lemma reduced_cases s n (a := sp_start s n) (b := sp_stop s n) (k := sp_step s) :
  0 <= n -> k <> 0 ->
  (reduced s n = RSl 0 0 1 /\ sp_count a b k = 0) \/
  (0 < k /\ 0 <= a < b /\ b <= n /\ reduced s n = RSl a b (Z.min k n)) \/
  (k < 0 /\ -1 <= b < a /\ a <= n - 1 /\ reduced s n = RSl (a - n) (b - n) (Z.max k (- n))).
Proof.
  intros Hn Hk.
  assert (Hstep : match sl_step s with Some k0 => k0 | None => 1 end = k) by reflexivity.
  unfold reduced. rewrite Hstep. clear Hstep.
  assert (Hp : 0 < k ->
     (match sl_start s with
        | Some st => if st <? - n then 0 else if st <? 0 then st + n
                     else if n <? st then n else st
        | None => 0 end) = a /\
     (match sl_stop s with
        | Some sp => if n <? sp then n else if sp <? - n then 0
                     else if sp <? 0 then sp + n else sp
        | None => n end) = b /\ 0 <= a <= n /\ 0 <= b <= n).
  { intros Hp. unfold a, b, sp_start, sp_stop, sp_adjust. fold k.
    replace (k <? 0) with false by lia.
    destruct (sl_start s) as [st|]; destruct (sl_stop s) as [sp|];
    repeat match goal with |- context [if ?c then _ else _] => destruct c eqn:?; try lia end; lia. }
  assert (Hq : k < 0 ->
     (match sl_start s with
        | Some st => if n <=? st then -1 else if st <? - n then - n - 1
                     else if 0 <=? st then st - n else st
        | None => -1 end) = a - n /\
     (match sl_stop s with
        | Some sp => if sp <? - n then - n - 1 else if n <=? sp then -1
                     else if 0 <=? sp then sp - n else sp
        | None => - n - 1 end) = b - n /\ -1 <= a <= n - 1 /\ -1 <= b <= n - 1).
  { intros Hq. unfold a, b, sp_start, sp_stop, sp_adjust. fold k.
    replace (k <? 0) with true by lia.
    destruct (sl_start s) as [st|]; destruct (sl_stop s) as [sp|];
    repeat match goal with |- context [if ?c then _ else _] => destruct c eqn:?; try lia end; lia. }
  clearbody a b k.
  destruct (0 <? k) eqn:E.
  - destruct Hp as (H1 & H2 & H3 & H4); [lia|]. clear Hq.
    cbv zeta. rewrite H1, H2. clear H1 H2.
    replace (if n <? k then n else k) with (Z.min k n) by (destruct (n <? k) eqn:?; lia).
    destruct ((b - a) * Z.min k n <=? 0) eqn:Em.
    + left. split; [reflexivity|]. unfold sp_count.
      replace (k <? 0) with false by lia.
      destruct (a <? b) eqn:Eab; [|reflexivity].
      exfalso. assert (0 < Z.min k n) by lia.
      assert (0 < (b - a) * Z.min k n) by (apply Z.mul_pos_pos; lia). lia.
    + right; left. assert (a < b).
      { destruct (Z.lt_ge_cases a b); [assumption|]. exfalso.
        assert ((b - a) * Z.min k n <= 0) by (apply Z.mul_nonpos_nonneg; lia). lia. }
      repeat split; try lia.
  - destruct Hq as (H1 & H2 & H3 & H4); [lia|]. clear Hp.
    cbv zeta. rewrite H1, H2. clear H1 H2.
    replace (if k <? - n then - n else k) with (Z.max k (- n)) by (destruct (k <? - n) eqn:?; lia).
    replace ((b - n - (a - n))) with (b - a) by lia.
    destruct ((b - a) * Z.max k (- n) <=? 0) eqn:Em.
    + left. split; [reflexivity|]. unfold sp_count.
      replace (k <? 0) with true by lia.
      destruct (b <? a) eqn:Eab; [|reflexivity].
      exfalso. assert (Z.max k (- n) < 0) by lia.
      assert (0 < (b - a) * Z.max k (- n)) by (apply Z.mul_neg_neg; lia). lia.
    + right; right. assert (b < a).
      { destruct (Z.lt_ge_cases b a); [assumption|]. exfalso.
        assert ((b - a) * Z.max k (- n) <= 0) by (apply Z.mul_nonneg_nonpos; lia). lia. }
      repeat split; try lia.
Qed.

(** [sp_count] for the clamped step. *)
Lemma sp_count_min a b k n : 0 < k -> 0 <= a < b -> b <= n ->
  sp_count a b (Z.min k n) = sp_count a b k.
Proof.
  intros Hk Hab Hb. unfold sp_count.
  replace (k <? 0) with false by lia. replace (Z.min k n <? 0) with false by lia.
  destruct (a <? b) eqn:E; [|lia].
  destruct (Z.le_gt_cases k n) as [Hkn|Hkn].
  - now replace (Z.min k n) with k by lia.
  - replace (Z.min k n) with n by lia.
    rewrite !Z.div_small by lia. reflexivity.
Qed.

Lemma sp_count_max a b k n : k < 0 -> -1 <= b < a -> a <= n - 1 ->
  sp_count a b (Z.max k (- n)) = sp_count a b k.
Proof.
  intros Hk Hab Hb. unfold sp_count.
  replace (k <? 0) with true by lia. replace (Z.max k (- n) <? 0) with true by lia.
  destruct (b <? a) eqn:E; [|lia].
  destruct (Z.le_gt_cases (- n) k) as [Hkn|Hkn].
  - now replace (Z.max k (- n)) with k by lia.
  - replace (Z.max k (- n)) with (- n) by lia.
    rewrite !Z.div_small by lia. reflexivity.
Qed.

Lemma sp_count_one_pos a b k : 0 < k -> a < b -> b - a <= k -> sp_count a b k = 1.
Proof.
  intros Hk Hab H. unfold sp_count. replace (k <? 0) with false by lia.
  destruct (a <? b) eqn:E; [|lia]. rewrite Z.div_small by lia. reflexivity.
Qed.

Lemma sp_count_one_neg a b k : k < 0 -> b < a -> a - b <= - k -> sp_count a b k = 1.
Proof.
  intros Hk Hab H. unfold sp_count. replace (k <? 0) with true by lia.
  destruct (b <? a) eqn:E; [|lia]. rewrite Z.div_small by lia. reflexivity.
Qed.

(** The number of items of a reduced slice. *)
Lemma nitems_pos a b k : 0 < k -> a < b -> nitems_r (RSl a b k) = Ok (sp_count a b k).
Proof.
  intros Hk Hab. unfold nitems_r, pydiv. cbn [r_start r_stop r_step].
  replace (b =? a) with false by lia.
  replace (Z.abs k =? 0) with false by lia. cbn [bind].
  replace (k =? 0) with false by lia. cbn [bind].
  rewrite Z.abs_eq, Z.div_same by lia. unfold sp_count.
  replace (k <? 0) with false by lia. destruct (a <? b) eqn:E; [|lia].
  replace (b - a + k - 1) with ((b - a - 1) + 1 * k) by lia.
  rewrite Z.div_add by lia.
  assert (0 <= (b - a - 1) / k) by (apply Z.div_pos; lia).
  f_equal. lia.
Qed.

Lemma nitems_neg a b k : k < 0 -> b < a -> nitems_r (RSl a b k) = Ok (sp_count a b k).
Proof.
  intros Hk Hab. unfold nitems_r, pydiv. cbn [r_start r_stop r_step].
  replace (b =? a) with false by lia.
  replace (Z.abs k =? 0) with false by lia. cbn [bind].
  replace (k =? 0) with false by lia. cbn [bind].
  replace (k / Z.abs k) with (-1).
  2:{ rewrite Z.abs_neq by lia. apply Z.div_unique_exact; lia. }
  unfold sp_count.
  replace (k <? 0) with true by lia. destruct (b <? a) eqn:E; [|lia].
  replace (b - a + k - -1) with (- (a - b - 1 + 1 * (- k))) by lia.
  rewrite <- (Z.opp_involutive k) at 2. rewrite Z.div_opp_opp by lia.
  rewrite Z.div_add by lia.
  assert (0 <= (a - b - 1) / - k) by (apply Z.div_pos; lia).
  f_equal. lia.
Qed.

Lemma nitems_empty : nitems_r (RSl 0 0 1) = Ok 0.
Proof. reflexivity. Qed.

Lemma sp_count_shift a b k c : sp_count (a - c) (b - c) k = sp_count a b k.
Proof.
  unfold sp_count.
  replace (b - c <? a - c) with (b <? a) by lia.
  replace (a - c <? b - c) with (a <? b) by lia.
  replace (a - c - (b - c)) with (a - b) by lia.
  replace (b - c - (a - c)) with (b - a) by lia. reflexivity.
Qed.

(** C03. *)
Lemma nitems_correct s n : 0 <= n -> sp_step s <> 0 ->
  nitems s n = Ok (zlen (selected s n)).
Proof.
  intros Hn Hk. rewrite selected_length by assumption. unfold nitems.
  destruct (reduced_cases s n Hn Hk) as [(E & Hc)|[(Hp & Ha & Hb & E)|(Hq & Hb & Ha & E)]];
    rewrite E.
  - rewrite nitems_empty. now rewrite Hc.
  - rewrite nitems_pos by lia. now rewrite sp_count_min.
  - rewrite nitems_neg by lia. rewrite sp_count_shift, sp_count_max by lia. reflexivity.
Qed.

(** C04. *)
Lemma selected_closed_form s n : 0 < n -> sp_step s <> 0 ->
  let r := reduced s n in
  selected s n = map (fun i => (r_start r) mod n + i * r_step r)
                     (zseq (zlen (selected s n))).
Proof.
  intros Hn Hk. cbv zeta. rewrite selected_length by assumption. unfold selected.
  destruct (reduced_cases s n ltac:(lia) Hk) as [(E & Hc)|[(Hp & Ha & Hb & E)|(Hq & Hb & Ha & E)]];
    rewrite E; cbn [r_start r_stop r_step].
  - rewrite Hc. reflexivity.
  - apply zseq_map_ext. intros i Hi. rewrite Z.mod_small by lia.
    destruct (Z.le_gt_cases (sp_step s) n) as [Hkn|Hkn].
    + replace (Z.min (sp_step s) n) with (sp_step s) by lia. lia.
    + rewrite sp_count_one_pos in Hi by lia. assert (i = 0) by lia. subst i. lia.
  - apply zseq_map_ext. intros i Hi.
    replace ((sp_start s n - n) mod n) with (sp_start s n).
    2:{ replace (sp_start s n - n) with (sp_start s n + (-1) * n) by lia.
        rewrite Z.mod_add by lia. rewrite Z.mod_small; lia. }
    destruct (Z.le_gt_cases (- n) (sp_step s)) as [Hkn|Hkn].
    + replace (Z.max (sp_step s) (- n)) with (sp_step s) by lia. lia.
    + rewrite sp_count_one_neg in Hi by lia. assert (i = 0) by lia. subst i. lia.
Qed.

(** Items are in range. *)
Lemma selected_in_range s n x : 0 <= n -> sp_step s <> 0 ->
  In x (selected s n) -> 0 <= x < n.
Proof.
  intros Hn Hk. unfold selected. rewrite in_map_iff.
  intros (i & <- & Hi). apply In_zseq in Hi. revert Hi.
  destruct (reduced_cases s n Hn Hk) as [(E & Hc)|[(Hp & Ha & Hb & E)|(Hq & Hb & Ha & E)]].
  - rewrite Hc. lia.
  - unfold sp_count. replace (sp_step s <? 0) with false by lia.
    destruct (sp_start s n <? sp_stop s n) eqn:E2; [|lia]. intros Hi.
    assert (i * sp_step s <= sp_stop s n - sp_start s n - 1).
    { assert (i <= (sp_stop s n - sp_start s n - 1) / sp_step s) by lia.
      assert (sp_step s * ((sp_stop s n - sp_start s n - 1) / sp_step s)
              <= sp_stop s n - sp_start s n - 1) by (apply Z.mul_div_le; lia). nia. }
    nia.
  - unfold sp_count. replace (sp_step s <? 0) with true by lia.
    destruct (sp_stop s n <? sp_start s n) eqn:E2; [|lia]. intros Hi.
    assert (i * (- sp_step s) <= sp_start s n - sp_stop s n - 1).
    { assert (i <= (sp_start s n - sp_stop s n - 1) / (- sp_step s)) by lia.
      assert (- sp_step s * ((sp_start s n - sp_stop s n - 1) / (- sp_step s))
              <= sp_start s n - sp_stop s n - 1) by (apply Z.mul_div_le; lia). nia. }
    nia.
Qed.

(** Bounds and step of the reduced slice seen as a Python slice. *)
Lemma sp_reduced_pos a b k n : 0 < k -> 0 <= a < b -> b <= n ->
  let s := to_slice (RSl a b k) in
  sp_start s n = a /\ sp_stop s n = b /\ sp_step s = k.
Proof.
  intros Hk Ha Hb. cbv zeta. unfold to_slice, sp_start, sp_stop, sp_adjust, sp_step.
  cbn [sl_start sl_stop sl_step r_start r_stop r_step].
  replace (k <? 0) with false by lia.
  repeat match goal with |- context [if ?c then _ else _] => destruct c eqn:?; try lia end; lia.
Qed.

Lemma sp_reduced_neg a b k n : k < 0 -> -1 <= b < a -> a <= n - 1 ->
  let s := to_slice (RSl (a - n) (b - n) k) in
  sp_start s n = a /\ sp_stop s n = b /\ sp_step s = k.
Proof.
  intros Hk Ha Hb. cbv zeta. unfold to_slice, sp_start, sp_stop, sp_adjust, sp_step.
  cbn [sl_start sl_stop sl_step r_start r_stop r_step].
  replace (k <? 0) with true by lia.
  repeat match goal with |- context [if ?c then _ else _] => destruct c eqn:?; try lia end; lia.
Qed.

(** C01. *)
Lemma reduced_selected s n : 0 <= n -> sp_step s <> 0 ->
  selected (to_slice (reduced s n)) n = selected s n.
Proof.
  intros Hn Hk. unfold selected at 2.
  destruct (reduced_cases s n Hn Hk) as [(E & Hc)|[(Hp & Ha & Hb & E)|(Hq & Hb & Ha & E)]];
    rewrite E.
  - rewrite Hc. unfold selected, sp_count, to_slice, sp_start, sp_stop, sp_step, sp_adjust; cbn.
    destruct (n <=? 0) eqn:En; cbn.
    + destruct (n <? n) eqn:E2; [lia|reflexivity].
    + reflexivity.
  - unfold selected.
    destruct (sp_reduced_pos (sp_start s n) (sp_stop s n) (Z.min (sp_step s) n) n) as (-> & -> & ->);
      try lia.
    rewrite sp_count_min by lia.
    apply zseq_map_ext. intros i Hi.
    destruct (Z.le_gt_cases (sp_step s) n) as [Hkn|Hkn].
    + replace (Z.min (sp_step s) n) with (sp_step s) by lia. lia.
    + rewrite sp_count_one_pos in Hi by lia. assert (i = 0) by lia. subst i. lia.
  - unfold selected.
    destruct (sp_reduced_neg (sp_start s n) (sp_stop s n) (Z.max (sp_step s) (- n)) n)
      as (-> & -> & ->); try lia.
    rewrite sp_count_max by lia.
    apply zseq_map_ext. intros i Hi.
    destruct (Z.le_gt_cases (- n) (sp_step s)) as [Hkn|Hkn].
    + replace (Z.max (sp_step s) (- n)) with (sp_step s) by lia. lia.
    + rewrite sp_count_one_neg in Hi by lia. assert (i = 0) by lia. subst i. lia.
Qed.

(** C02: the normal form. *)
Definition normal_slice (r : rsl) (n : Z) : Prop :=
  r = RSl 0 0 1 \/
  (0 < r_step r <= n /\ 0 <= r_start r < r_stop r /\ r_stop r <= n) \/
  (- n <= r_step r < 0 /\ - n - 1 <= r_stop r < r_start r /\ r_start r <= -1).

Lemma reduced_step0 s n : sp_step s = 0 -> 0 <= n -> reduced s n = RSl 0 0 1.
Proof.
  intros H Hn. unfold reduced. unfold sp_step in H. rewrite H.
  cbn [Z.ltb Z.compare]. cbv zeta.
  replace (0 <? - n) with false by lia. rewrite Z.mul_0_r. reflexivity.
Qed.

Lemma reduced_normal s n : 0 <= n -> normal_slice (reduced s n) n.
Proof.
  intros Hn. unfold normal_slice.
  destruct (Z.eq_dec (sp_step s) 0) as [H0|Hk].
  - left. now apply reduced_step0.
  - destruct (reduced_cases s n Hn Hk) as [(E & Hc)|[(Hp & Ha & Hb & E)|(Hq & Hb & Ha & E)]];
      rewrite E; cbn [r_start r_stop r_step].
    + now left.
    + right; left. lia.
    + right; right. lia.
Qed.

Lemma normal_slice_step r n : normal_slice r n -> r_step r <> 0.
Proof. intros [->|[H|H]]; cbn; lia. Qed.

Lemma reduced_normal_id r n : 0 <= n -> normal_slice r n -> reduced (to_slice r) n = r.
Proof.
  intros Hn [->|[H|H]].
  - unfold reduced, to_slice; cbn.
    repeat match goal with |- context [if ?c then _ else _] => destruct c eqn:?; try lia end;
    reflexivity.
  - destruct r as [a b k]; cbn [r_start r_stop r_step] in H.
    unfold reduced, to_slice. cbn [sl_start sl_stop sl_step r_start r_stop r_step].
    replace (0 <? k) with true by lia.
    replace (a <? - n) with false by lia. replace (a <? 0) with false by lia.
    replace (n <? a) with false by lia. replace (n <? b) with false by lia.
    replace (b <? - n) with false by lia. replace (b <? 0) with false by lia.
    replace (n <? k) with false by lia.
    assert (0 < (b - a) * k) by (apply Z.mul_pos_pos; lia).
    replace ((b - a) * k <=? 0) with false by lia. reflexivity.
  - destruct r as [a b k]; cbn [r_start r_stop r_step] in H.
    unfold reduced, to_slice. cbn [sl_start sl_stop sl_step r_start r_stop r_step].
    replace (0 <? k) with false by lia.
    replace (n <=? a) with false by lia. replace (a <? - n) with false by lia.
    replace (0 <=? a) with false by lia. replace (k <? - n) with false by lia.
    replace (if b <? - n then - n - 1 else if n <=? b then -1 else if 0 <=? b then b - n else b)
      with b.
    2:{ destruct (b <? - n) eqn:?; [lia|]. replace (n <=? b) with false by lia.
        replace (0 <=? b) with false by lia. reflexivity. }
    assert (0 < (b - a) * k) by (apply Z.mul_neg_neg; lia).
    replace ((b - a) * k <=? 0) with false by lia. reflexivity.
Qed.

Lemma reduced_idempotent s n : 0 <= n -> reduced (to_slice (reduced s n)) n = reduced s n.
Proof. intros Hn. apply reduced_normal_id; [assumption|]. now apply reduced_normal. Qed.

Lemma selected_nil_count s n : sp_step s <> 0 ->
  selected s n = [] <-> sp_count (sp_start s n) (sp_stop s n) (sp_step s) = 0.
Proof.
  intros Hk. rewrite <- selected_length by assumption. unfold zlen.
  split.
  - intros ->. reflexivity.
  - destruct (selected s n); [reflexivity|cbn [length]; lia].
Qed.

Lemma reduced_empty_iff s n : 0 <= n -> sp_step s <> 0 ->
  (reduced s n = RSl 0 0 1 <-> selected s n = []).
Proof.
  intros Hn Hk. rewrite selected_nil_count by assumption.
  pose proof (sp_count_nonneg (sp_start s n) (sp_stop s n) (sp_step s) Hk) as Hnn.
  destruct (reduced_cases s n Hn Hk) as [(E & Hc)|[(Hp & Ha & Hb & E)|(Hq & Hb & Ha & E)]];
    rewrite E.
  - tauto.
  - assert (0 < sp_count (sp_start s n) (sp_stop s n) (sp_step s)).
    { unfold sp_count. replace (sp_step s <? 0) with false by lia.
      destruct (_ <? _) eqn:?; [|lia].
      assert (0 <= (sp_stop s n - sp_start s n - 1) / sp_step s) by (apply Z.div_pos; lia). lia. }
    split; [|lia]. intros H1. injection H1. lia.
  - assert (0 < sp_count (sp_start s n) (sp_stop s n) (sp_step s)).
    { unfold sp_count. replace (sp_step s <? 0) with true by lia.
      destruct (_ <? _) eqn:?; [|lia].
      assert (0 <= (sp_start s n - sp_stop s n - 1) / - sp_step s) by (apply Z.div_pos; lia). lia. }
    split; [|lia]. intros H1. injection H1. lia.
Qed.

(** The specification's progression is what [range] means: exactly the values
    start + i*step, i >= 0, that have not yet reached stop. *)
Lemma sp_count_spec a b k i : k <> 0 -> 0 <= i ->
  (i < sp_count a b k <-> if k <? 0 then b < a + i * k else a + i * k < b).
Proof.
  intros Hk Hi. unfold sp_count. destruct (k <? 0) eqn:E.
  - destruct (b <? a) eqn:E2; [|nia].
    pose proof (Z.div_mod (a - b - 1) (- k) ltac:(lia)).
    pose proof (Z.mod_pos_bound (a - b - 1) (- k) ltac:(lia)).
    set (q := (a - b - 1) / - k) in *. split; intros; nia.
  - destruct (a <? b) eqn:E2; [|nia].
    pose proof (Z.div_mod (b - a - 1) k ltac:(lia)).
    pose proof (Z.mod_pos_bound (b - a - 1) k ltac:(lia)).
    set (q := (b - a - 1) / k) in *. split; intros; nia.
Qed.

(** Lemmas on the fraction-free elimination of init_diophantine. *)
From Verif Require Import Py SliceTools ExtgcdFacts DioFacts.

(** * Finite sums *)
Fixpoint zsum (f : nat -> Z) (n : nat) : Z :=
  match n with O => 0 | S m => zsum f m + f m end.

Lemma zsum_ext f g n : (forall j, (j < n)%nat -> f j = g j) -> zsum f n = zsum g n.
Proof. induction n as [|n IH]; intros H; cbn; [reflexivity|]. rewrite IH, H; auto. Qed.

Lemma zsum_zero f n : (forall j, (j < n)%nat -> f j = 0) -> zsum f n = 0.
Proof. induction n as [|n IH]; intros H; cbn; [reflexivity|]. rewrite IH, H; auto. Qed.

Lemma zsum_one f n p : (p < n)%nat -> (forall j, (j < n)%nat -> j <> p -> f j = 0) ->
  zsum f n = f p.
Proof.
  induction n as [|n IH]; intros Hp H; [lia|]. cbn.
  destruct (Nat.eq_dec p n) as [->|Hne].
  - rewrite zsum_zero; [lia|]. intros j Hj. apply H; lia.
  - rewrite IH by (lia || (intros; apply H; lia)). rewrite (H n) by lia. lia.
Qed.

Lemma zsum_shift f n : zsum f (S n) = f 0%nat + zsum (fun j => f (S j)) n.
Proof. induction n as [|n IH]; [cbn; lia|]. cbn [zsum] in *. lia. Qed.

Lemma zdot_zsum l v : length l = length v ->
  zdot l v = zsum (fun j => nth j l 0 * nth j v 0) (length l).
Proof.
  revert v. induction l as [|a l IH]; intros v H; destruct v as [|b v]; cbn in H; try lia;
    [reflexivity|].
  cbn [length]. rewrite zsum_shift. cbn [zdot nth]. rewrite IH by lia. reflexivity.
Qed.

Lemma zsum_split f n m : zsum f (n + m) = zsum f n + zsum (fun j => f (n + j)%nat) m.
Proof.
  induction m as [|m IH].
  - rewrite Nat.add_0_r. cbn. lia.
  - rewrite Nat.add_succ_r. cbn [zsum]. rewrite IH. lia.
Qed.

(** * Matrices *)
Definition row (A : list (list Z)) (k : nat) : list Z := nth k A [].
Definition ent (A : list (list Z)) (k j : nat) : Z := nth j (row A k) 0.
Definition wfm (R C : nat) (A : list (list Z)) : Prop :=
  length A = R /\ Forall (fun r => length r = C) A.

Lemma wfm_row R C A k : wfm R C A -> (k < R)%nat -> length (row A k) = C.
Proof.
  intros [HA HF] Hk. unfold row.
  rewrite Forall_forall in HF. apply HF. apply nth_In. lia.
Qed.

Lemma map2_id_row (ri rk : list Z) : length ri = length rk ->
  map2 (fun x y => x * 0 - y * (-1)) ri rk = rk.
Proof.
  revert rk. induction ri as [|a l IH]; intros [|b m] H; cbn in H; try lia; [reflexivity|].
  cbn [map2]. rewrite IH by lia. f_equal. lia.
Qed.

Lemma elim_step_ok R C A i : wfm R C A -> (i < R)%nat -> (R <= C)%nat -> ent A i i <> 0 ->
  exists A', elim_step i A = Ok A' /\ wfm R C A'
    /\ forall k, (k < R)%nat ->
         (k <> i -> ent A' k i = 0)
         /\ exists al be, be <> 0
              /\ (k = i -> al = 0 /\ be = -1)
              /\ row A' k = map2 (fun x y => x * al - y * be) (row A i) (row A k).
Proof.
  intros Hwf Hi HRC Hp. unfold elim_step. fold (row A i). fold (ent A i i).
  replace (ent A i i =? 0) with false by lia.
  match goal with |- exists A', Ok (map ?g _) = _ /\ _ => set (f := g) end.
  eexists. split; [reflexivity|].
  assert (Hrow : forall k, (k < R)%nat -> row (map f (seq 0 (length A))) k = f k).
  { intros k Hk. unfold row.
    rewrite nth_indep with (d' := f 0%nat) by (rewrite map_length, seq_length; destruct Hwf; lia).
    rewrite map_nth, seq_nth by (destruct Hwf; lia). reflexivity. }
  assert (Hf : forall k, (k < R)%nat -> exists al be, be <> 0
              /\ (k = i -> al = 0 /\ be = -1)
              /\ f k = map2 (fun x y => x * al - y * be) (row A i) (row A k)
              /\ (k <> i -> nth i (f k) 0 = 0)).
  { intros k Hk. unfold f. destruct (Nat.eqb i k) eqn:E.
    - apply Nat.eqb_eq in E. subst k. exists 0, (-1). repeat split; try lia.
      symmetry. apply map2_id_row. reflexivity.
    - apply Nat.eqb_neq in E.
      change (nth k A []) with (row A k).
      destruct (nth i (row A k) 0 =? 0) eqn:E0.
      + exists 0, (-1). repeat split; try lia.
        symmetry. apply map2_id_row. now rewrite !(wfm_row R C).
      + exists (nth i (row A k) 0), (ent A i i). repeat split; try lia.
        rewrite map2_nth by (rewrite (wfm_row R C) by assumption; lia).
        unfold ent. lia. }
  split.
  - split; [rewrite map_length, seq_length; now destruct Hwf|].
    apply Forall_map. apply Forall_forall. intros k Hk. apply in_seq in Hk.
    destruct Hwf as [HA HF]. destruct (Hf k ltac:(lia)) as (al & be & _ & _ & -> & _).
    rewrite map2_length, !(wfm_row R C) by (split || lia; assumption). lia.
  - intros k Hk. unfold ent. rewrite Hrow by assumption.
    destruct (Hf k Hk) as (al & be & H1 & H2 & H3 & H4).
    split; [assumption|]. exists al, be. auto.
Qed.

(** * Diagonalised prefix and leading kernels *)
Definition diag (R p : nat) (A : list (list Z)) : Prop :=
  (forall k j, (k < R)%nat -> (j < p)%nat -> k <> j -> ent A k j = 0)
  /\ (forall j, (j < p)%nat -> ent A j j <> 0).

Definition lead_triv (C i : nat) (A : list (list Z)) : Prop :=
  forall v, length v = C -> (forall j, (i < j)%nat -> nth j v 0 = 0) ->
  (forall k, (k <= i)%nat -> zdot (row A k) v = 0) ->
  forall j, nth j v 0 = 0.

Fixpoint zprod (f : nat -> Z) (n : nat) : Z :=
  match n with O => 1 | S m => zprod f m * f m end.

Lemma zprod_nonzero f n : (forall j, (j < n)%nat -> f j <> 0) -> zprod f n <> 0.
Proof.
  induction n as [|n IH]; intros H; cbn; [lia|].
  assert (zprod f n <> 0) by auto. assert (f n <> 0) by auto. nia.
Qed.

Lemma zprod_divide f n j : (j < n)%nat -> (f j | zprod f n).
Proof.
  induction n as [|n IH]; intros H; [lia|]. cbn.
  destruct (Nat.eq_dec j n) as [->|Hne].
  - apply Z.divide_factor_r.
  - apply Z.divide_mul_l. apply IH. lia.
Qed.

Lemma pivot_nonzero R C A i : wfm R C A -> (i < R)%nat -> (R <= C)%nat ->
  diag R i A -> lead_triv C i A -> ent A i i <> 0.
Proof.
  intros Hwf Hi HRC [Hd1 Hd2] HL H0.
  set (P := zprod (fun j => ent A j j) i).
  assert (HP : P <> 0) by (apply zprod_nonzero; exact Hd2).
  set (g := fun j : nat => if Nat.ltb j i then - (ent A j i * (P / ent A j j))
                           else if Nat.eqb j i then P else 0).
  set (v := map g (seq 0 C)).
  assert (Hlen : length v = C) by (unfold v; now rewrite map_length, seq_length).
  assert (Hv : forall j, (j < C)%nat -> nth j v 0 = g j).
  { intros j Hj. unfold v.
    rewrite nth_indep with (d' := g 0%nat) by (rewrite map_length, seq_length; lia).
    rewrite map_nth, seq_nth by lia. reflexivity. }
  apply HP. replace P with (nth i v 0).
  2:{ rewrite Hv by lia. unfold g. rewrite Nat.ltb_irrefl, Nat.eqb_refl. reflexivity. }
  apply HL.
  - exact Hlen.
  - intros j Hj. destruct (Nat.ltb j C) eqn:Ej.
    + apply Nat.ltb_lt in Ej. rewrite Hv by lia. unfold g.
      replace (Nat.ltb j i) with false by (symmetry; apply Nat.ltb_ge; lia).
      replace (Nat.eqb j i) with false by (symmetry; apply Nat.eqb_neq; lia). reflexivity.
    + apply Nat.ltb_ge in Ej. apply nth_overflow. lia.
  - intros k Hk.
    rewrite zdot_zsum by (rewrite (wfm_row R C); [lia|assumption|lia]).
    rewrite (wfm_row R C) by (assumption || lia).
    replace C with (i + S (C - S i))%nat by lia.
    rewrite zsum_split, zsum_shift. rewrite Nat.add_0_r.
    assert (E3 : zsum (fun j => nth (i + S j) (row A k) 0 * nth (i + S j) v 0) (C - S i) = 0).
    { apply zsum_zero. intros j Hj. rewrite Hv by lia. unfold g.
      replace (Nat.ltb (i + S j) i) with false by (symmetry; apply Nat.ltb_ge; lia).
      replace (Nat.eqb (i + S j) i) with false by (symmetry; apply Nat.eqb_neq; lia). lia. }
    rewrite E3. rewrite (Hv i) by lia.
    assert (Eg : g i = P) by (unfold g; rewrite Nat.ltb_irrefl, Nat.eqb_refl; reflexivity).
    rewrite Eg. fold (ent A k i).
    destruct (Nat.eq_dec k i) as [->|Hne].
    + rewrite H0. rewrite zsum_zero; [lia|].
      intros j Hj. fold (ent A i j). rewrite (Hd1 i j) by lia. lia.
    + rewrite (zsum_one _ i k).
      * rewrite Hv by lia. unfold g.
        replace (Nat.ltb k i) with true by (symmetry; apply Nat.ltb_lt; lia).
        fold (ent A k k).
        destruct (zprod_divide (fun j => ent A j j) i k ltac:(lia)) as [q Hq].
        fold P in Hq. cbn beta in Hq. rewrite Hq. rewrite Z.div_mul by (apply Hd2; lia). ring.
      * lia.
      * intros j Hj Hjk. fold (ent A k j). rewrite (Hd1 k j) by lia. lia.
Qed.

Lemma elim_step_diag R C A i : wfm R C A -> (i < R)%nat -> (R <= C)%nat ->
  diag R i A -> ent A i i <> 0 ->
  exists A', elim_step i A = Ok A' /\ wfm R C A' /\ diag R (S i) A'
    /\ (forall v, (forall k, (k < R)%nat -> zdot (row A k) v = 0) ->
                  forall k, (k < R)%nat -> zdot (row A' k) v = 0)
    /\ (forall m, (i <= m < R)%nat -> lead_triv C m A -> lead_triv C m A').
Proof.
  intros Hwf Hi HRC [Hd1 Hd2] Hp.
  destruct (elim_step_ok R C A i Hwf Hi HRC Hp) as (A' & E & Hwf' & HA').
  exists A'. split; [exact E|]. split; [exact Hwf'|].
  assert (Hent : forall k j, (k < R)%nat -> (j < C)%nat -> exists al be, be <> 0
             /\ (k = i -> al = 0 /\ be = -1)
             /\ ent A' k j = ent A i j * al - ent A k j * be).
  { intros k j Hk Hj. destruct (HA' k Hk) as (_ & al & be & H1 & H2 & H3).
    exists al, be. split; [assumption|]. split; [assumption|].
    unfold ent. rewrite H3.
    rewrite map2_nth by (rewrite (wfm_row R C); [lia|assumption|lia]). reflexivity. }
  assert (Hdot : forall k v, (k < R)%nat -> exists al be, be <> 0
             /\ zdot (row A' k) v = zdot (row A i) v * al - zdot (row A k) v * be).
  { intros k v Hk. destruct (HA' k Hk) as (_ & al & be & H1 & H2 & H3).
    exists al, be. split; [assumption|]. rewrite H3. apply zdot_map2_lin.
    now rewrite !(wfm_row R C). }
  split.
  { split.
    - intros k j Hk Hj Hkj. destruct (Nat.eq_dec j i) as [->|Hji].
      + now apply HA'.
      + destruct (Hent k j Hk ltac:(lia)) as (al & be & H1 & H2 & ->).
        rewrite (Hd1 i j), (Hd1 k j) by lia. lia.
    - intros j Hj. destruct (Hent j j ltac:(lia) ltac:(lia)) as (al & be & H1 & H2 & ->).
      destruct (Nat.eq_dec j i) as [->|Hji].
      + destruct (H2 eq_refl) as [-> ->]. lia.
      + rewrite (Hd1 i j) by lia. assert (ent A j j <> 0) by (apply Hd2; lia). nia. }
  split.
  - intros v Hv k Hk. destruct (Hdot k v Hk) as (al & be & _ & ->).
    rewrite (Hv i Hi), (Hv k Hk). lia.
  - intros m Hm HL v Hlen Hz Hv. apply HL; try assumption.
    assert (Hvi : zdot (row A i) v = 0).
    { specialize (Hv i ltac:(lia)). destruct (HA' i Hi) as (_ & al & be & H1 & H2 & H3).
      destruct (H2 eq_refl) as [-> ->]. rewrite H3, map2_id_row in Hv by reflexivity. exact Hv. }
    intros k Hk. specialize (Hv k Hk).
    destruct (Hdot k v ltac:(lia)) as (al & be & Hbe & E2). rewrite E2, Hvi in Hv. nia.
Qed.

Lemma elim_steps_ok R C A p : wfm R C A -> (p <= R)%nat -> (R <= C)%nat -> diag R p A ->
  (forall i, (p <= i < R)%nat -> lead_triv C i A) ->
  exists A', elim_steps (seq p (R - p)) A = Ok A' /\ wfm R C A' /\ diag R R A'
    /\ (forall v, (forall k, (k < R)%nat -> zdot (row A k) v = 0) ->
                  forall k, (k < R)%nat -> zdot (row A' k) v = 0).
Proof.
  intros Hwf Hp HRC. remember (R - p)%nat as n eqn:En.
  revert p A Hwf Hp En. induction n as [|n IH]; intros p A Hwf Hp En Hd HL.
  - exists A. cbn. assert (p = R) by lia. subst p. auto.
  - assert (Hpiv : ent A p p <> 0).
    { apply (pivot_nonzero R C); auto; [lia|]. apply HL. lia. }
    destruct (elim_step_diag R C A p Hwf ltac:(lia) HRC Hd Hpiv)
      as (A1 & E1 & Hwf1 & Hd1 & Hv1 & HL1).
    destruct (IH (S p) A1 Hwf1 ltac:(lia) ltac:(lia) Hd1) as (A' & E & Hwf' & Hd' & Hv').
    { intros i Hi. apply HL1; [lia|]. apply HL. lia. }
    exists A'. cbn [seq elim_steps]. rewrite E1. cbn [bind].
    split; [exact E|]. split; [exact Hwf'|]. split; [exact Hd'|].
    intros v Hv. apply Hv'. now apply Hv1.
Qed.

(** Row equations of a diagonalised system. *)
Lemma diag_row R C A v k : wfm R C A -> (R <= C)%nat -> diag R R A -> length v = C ->
  (k < R)%nat ->
  zdot (row A k) v = ent A k k * nth k v 0
                     + zsum (fun j => ent A k (R + j) * nth (R + j) v 0) (C - R).
Proof.
  intros Hwf HRC [Hd1 _] Hlen Hk.
  rewrite zdot_zsum by (rewrite (wfm_row R C); [lia|assumption|lia]).
  rewrite (wfm_row R C) by assumption.
  replace C with (R + (C - R))%nat at 1 by lia.
  rewrite zsum_split. apply f_equal2; [|reflexivity].
  apply (zsum_one (fun j => nth j (row A k) 0 * nth j v 0)); [assumption|].
  intros j Hj Hjk. fold (ent A k j). rewrite Hd1 by lia. lia.
Qed.

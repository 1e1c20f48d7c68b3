(** The matrix of init_diophantine has no zero pivot when all coefficients are
    nonzero, and the resulting data satisfies the vertex equations. *)
From Verif Require Import Py SliceTools ExtgcdFacts DioFacts ElimFacts.

(** * Rows of the matrix *)
Lemma unit_row_length i len : length (unit_row i len) = len.
Proof. unfold unit_row. now rewrite map_length, seq_length. Qed.

Lemma unit_row_nth i len j : (j < len)%nat ->
  nth j (unit_row i len) 0 = if Nat.eqb i j then 1 else 0.
Proof.
  intros H. unfold unit_row.
  set (f := fun j => _). rewrite nth_indep with (d' := f 0%nat)
    by (rewrite map_length, seq_length; lia).
  rewrite map_nth, seq_nth by lia. reflexivity.
Qed.

Lemma unit_row_dot i s : zdot (unit_row i (length s)) s = nth i s 0.
Proof.
  rewrite zdot_zsum by apply unit_row_length. rewrite unit_row_length.
  destruct (Nat.ltb i (length s)) eqn:E.
  - apply Nat.ltb_lt in E. rewrite (zsum_one _ _ i E).
    + rewrite unit_row_nth, Nat.eqb_refl by assumption. lia.
    + intros j Hj Hne. rewrite unit_row_nth by assumption.
      replace (Nat.eqb i j) with false by (symmetry; apply Nat.eqb_neq; lia). lia.
  - apply Nat.ltb_ge in E. rewrite zsum_zero; [now rewrite nth_overflow|].
    intros j Hj. rewrite unit_row_nth by assumption.
    replace (Nat.eqb i j) with false by (symmetry; apply Nat.eqb_neq; lia). lia.
Qed.

Definition ncols (N : nat) (shape : option (list Z)) : nat :=
  (2 * N + match shape with None => 1 | Some _ => 2 end)%nat.

(** the coefficient of the constant column *)
Definition lastv (shape : option (list Z)) (p q : Z) : list Z :=
  match shape with None => [p] | Some _ => [p; q] end.
Definition upper (shape : option (list Z)) (i : nat) (q : Z) : Z :=
  match shape with None => 0 | Some sh => (- nth i sh 0 + 1) * q end.

Section Matrix.
  Variables (N n : nat) (z0 : list Z) (ds : list (list Z)) (shape : option (list Z)).
  Hypothesis HN : N = S n.
  Hypothesis Hds : length ds = N.
  Hypothesis Hrows : Forall (fun r => length r = n) ds.
  Let A := dio_matrix N n z0 ds shape.

  Lemma ds_row i : (i < N)%nat -> length (nth i ds []) = n.
  Proof. intros Hi. rewrite Forall_forall in Hrows. apply Hrows, nth_In. lia. Qed.

  Lemma matrix_row_lo i : (i < N)%nat ->
    row A i = nth i ds [] ++ unit_row i (S N) ++ [- nth i z0 0]
                ++ match shape with None => [] | Some _ => [0] end.
  Proof.
    intros Hi. unfold A, row, dio_matrix.
    set (f := fun i => _ ++ _ ++ _ ++ match shape with None => [] | Some _ => [0] end).
    rewrite app_nth1 by (rewrite map_length, seq_length; lia).
    rewrite nth_indep with (d' := f 0%nat) by (rewrite map_length, seq_length; lia).
    rewrite map_nth, seq_nth by lia. unfold f. cbn [Nat.add].
    replace (2 * N - n)%nat with (S N) by lia. reflexivity.
  Qed.

  Lemma matrix_row_hi i : (i < N)%nat ->
    row A (N + i) = map Z.opp (nth i ds []) ++ unit_row (N + i) (S N) ++ [nth i z0 0]
                ++ match shape with None => [] | Some sh => [- nth i sh 0 + 1] end.
  Proof.
    intros Hi. unfold A, row, dio_matrix.
    rewrite app_nth2 by (rewrite map_length, seq_length; lia).
    rewrite map_length, seq_length.
    replace (N + i - N)%nat with i by lia.
    set (f := fun i => map Z.opp _ ++ _ ++ _ ++ match shape with None => [] | Some _ => _ end).
    rewrite nth_indep with (d' := f 0%nat) by (rewrite map_length, seq_length; lia).
    rewrite map_nth, seq_nth by lia. unfold f. rewrite Nat.add_0_l.
    replace (2 * N - n)%nat with (S N) by lia. reflexivity.
  Qed.

  Lemma matrix_wf : wfm (2 * N) (ncols N shape) A.
  Proof.
    unfold A, dio_matrix, ncols. split.
    - rewrite app_length, !map_length, seq_length. lia.
    - apply Forall_app. split; apply Forall_map, Forall_forall; intros i Hi; apply in_seq in Hi;
        rewrite !app_length, ?map_length, unit_row_length, ds_row by lia;
        destruct shape; cbn [length]; lia.
  Qed.

  Lemma matrix_dot_lo i t s p q : (i < N)%nat -> length t = n -> length s = S N ->
    zdot (row A i) (t ++ s ++ lastv shape p q)
    = zdot (nth i ds []) t + nth i s 0 - nth i z0 0 * p.
  Proof.
    intros Hi Ht Hs. rewrite matrix_row_lo by assumption.
    rewrite zdot_app by (rewrite ds_row by assumption; lia).
    rewrite zdot_app by (rewrite unit_row_length; lia).
    rewrite <- Hs, unit_row_dot.
    destruct shape; cbn [lastv app zdot]; lia.
  Qed.

  Lemma matrix_dot_hi i t s p q : (i < N)%nat -> length t = n -> length s = S N ->
    zdot (row A (N + i)) (t ++ s ++ lastv shape p q)
    = - zdot (nth i ds []) t + nth (N + i) s 0 + nth i z0 0 * p + upper shape i q.
  Proof.
    intros Hi Ht Hs. rewrite matrix_row_hi by assumption.
    rewrite zdot_app by (rewrite map_length, ds_row by assumption; lia).
    rewrite zdot_app by (rewrite unit_row_length; lia).
    rewrite zdot_opp_l.
    rewrite <- Hs, unit_row_dot.
    destruct shape; cbn [lastv app zdot upper]; lia.
  Qed.
End Matrix.

(** * No zero pivot *)
Lemma sol_zero a0 rest t : (forall j, nth j t 0 = 0) -> forall k, nth k (sol a0 rest 0 t) 0 = 0.
Proof.
  revert a0 t. induction rest as [|a1 r IH]; intros a0 t Ht k; cbn [sol].
  - destruct k as [|[|k]]; reflexivity.
  - destruct (extgcd a0 a1) as [[d x0] y0].
    assert (Ht' : forall j, nth j (tl t) 0 = 0).
    { intros j. destruct t as [|t0 t]; [now destruct j|]. exact (Ht (S j)). }
    specialize (IH d (tl t) Ht').
    assert (hd 0 t = 0) as -> by (specialize (Ht 0%nat); destruct t; auto).
    pose proof (IH 0%nat) as H0. 
    destruct (sol d r 0 (tl t)) as [|w0 w]; cbn [hd tl nth] in *.
    + destruct k as [|[|[|k]]]; cbn [nth]; lia.
    + subst w0. destruct k as [|[|k]]; cbn [nth]; try lia. exact (IH (S k)).
Qed.

Lemma sol_hess a0 rest t i : (forall j, (i < j)%nat -> nth j t 0 = 0) ->
  forall k, (S i < k)%nat -> nth k (sol a0 rest 0 t) 0 = 0.
Proof.
  revert a0 t i. induction rest as [|a1 r IH]; intros a0 t i Ht k Hk; cbn [sol].
  - destruct k as [|[|k]]; reflexivity.
  - destruct (extgcd a0 a1) as [[d x0] y0]. destruct k as [|[|k]]; try lia. cbn [nth].
    replace (nth k (tl (sol d r 0 (tl t))) 0) with (nth (S k) (sol d r 0 (tl t)) 0)
      by (destruct (sol d r 0 (tl t)); [destruct k|]; reflexivity).
    destruct i as [|i].
    + apply sol_zero. intros j. specialize (Ht (S j) ltac:(lia)).
      destruct t; [destruct j|]; auto.
    + apply (IH d (tl t) i); [|lia]. intros j Hj. specialize (Ht (S j) ltac:(lia)).
      destruct t; [destruct j|]; auto.
Qed.

Lemma dot_single a x p : Forall (fun v => v <> 0) a -> length a = length x ->
  zdot a x = 0 -> (forall k, k <> p -> nth k x 0 = 0) -> forall k, nth k x 0 = 0.
Proof.
  intros Ha Hl H0 Hx k. destruct (Nat.eq_dec k p) as [->|]; [|auto].
  destruct (Nat.ltb p (length x)) eqn:E.
  2:{ apply Nat.ltb_ge in E. now apply nth_overflow. }
  apply Nat.ltb_lt in E.
  rewrite zdot_zsum in H0 by assumption. rewrite (zsum_one _ _ p) in H0.
  - rewrite Forall_forall in Ha. assert (Hp : (p < length a)%nat) by lia.
    specialize (Ha (nth p a 0) (nth_In a 0 Hp)). nia.
  - lia.
  - intros j _ Hj. rewrite Hx by assumption. lia.
Qed.

Lemma all_nth_zero (x : list Z) : (forall k, nth k x 0 = 0) -> x = map (fun _ => 0) x.
Proof.
  induction x as [|a x IH]; intros H; [reflexivity|]. cbn [map].
  f_equal; [exact (H 0%nat)|]. apply IH. intros k. exact (H (S k)).
Qed.

Lemma par_zero a0 rest x : (forall k, nth k x 0 = 0) -> forall k, nth k (par a0 rest x) 0 = 0.
Proof.
  revert a0 x. induction rest as [|a1 r IH]; intros a0 x Hx k; cbn [par].
  - destruct k; reflexivity.
  - destruct (extgcd a0 a1) as [[d x0] y0].
    assert (E0 : hd 0 x = 0) by (specialize (Hx 0%nat); destruct x; auto).
    assert (E1 : hd 0 (tl x) = 0) by (specialize (Hx 1%nat); destruct x as [|? [|]]; auto).
    rewrite E0, E1. destruct k as [|k]; cbn [nth]; [lia|].
    apply IH. intros [|j]; cbn [nth]; [lia|].
    specialize (Hx (S (S j))). destruct x as [|? [|? x]]; cbn [tl nth] in *; auto; destruct j; auto.
Qed.

Lemma zip_with_nth_row k t z0 ds i : (i < length z0)%nat -> length z0 = length ds ->
  nth i (zip_with (row_value k t) z0 ds) 0 = nth i z0 0 * k + zdot (nth i ds []) t.
Proof.
  revert ds i. induction z0 as [|z z0 IH]; intros ds i Hi Hl; cbn in Hi; [lia|].
  destruct ds as [|r ds]; cbn in Hl; [lia|]. destruct i; cbn [zip_with nth]; [reflexivity|].
  apply IH; lia.
Qed.

Lemma split_vec (v : list Z) n m r : length v = (n + (m + r))%nat ->
  exists t s l, v = t ++ s ++ l /\ length t = n /\ length s = m /\ length l = r.
Proof.
  intros H. exists (firstn n v), (firstn m (skipn n v)), (skipn m (skipn n v)).
  rewrite !firstn_skipn. repeat split.
  - rewrite firstn_length. lia.
  - rewrite firstn_length, skipn_length. lia.
  - rewrite !skipn_length. lia.
Qed.

Lemma lead_triv_matrix a0 rest e shape :
  Forall (fun a => a <> 0) (a0 :: rest) -> rest <> [] ->
  init_dio_rec a0 rest = Ok (Some e) ->
  let N := S (length rest) in
  forall i, (i < 2 * N)%nat ->
  lead_triv (ncols N shape) i (dio_matrix N (length rest) (dio_z0 e) (dio_ds e) shape).
Proof.
  intros Ha Hr He N i Hi v Hlen Hz Hk.
  assert (Ha0 : a0 <> 0) by (now inversion Ha).
  destruct (good_nonzero a0 rest Ha0) as [Hg Hgall].
  destruct (init_dio_rec_ok a0 rest Hr Hg) as (e' & He' & Hd & Hz0 & Hds & Hrows & Hval).
  rewrite He in He'. injection He' as <-.
  set (n := length rest) in *.
  set (r := match shape with None => 1%nat | Some _ => 2%nat end).
  destruct (split_vec v n (S N) r) as (t & s & l & Ev & Ht & Hs & Hl).
  { rewrite Hlen. unfold ncols. fold r. lia. }
  assert (El : l = lastv shape 0 0).
  { assert (Hl0 : forall j, nth j l 0 = 0).
    { intros j. specialize (Hz (n + S N + j)%nat). rewrite Ev in Hz.
      rewrite app_nth2 in Hz by lia. rewrite app_nth2 in Hz by lia.
      replace (n + S N + j - length t - length s)%nat with j in Hz by lia.
      apply Hz. lia. }
    pose proof (Hl0 0%nat) as G0. pose proof (Hl0 1%nat) as G1.
    unfold r in Hl. destruct shape; destruct l as [|u0 [|u1 [|]]]; cbn in *; try lia; subst; auto. }
  assert (Hst : forall j, (i < n + j)%nat -> (j < S N)%nat -> nth j s 0 = 0).
  { intros j Hj Hj2. specialize (Hz (n + j)%nat Hj). rewrite Ev in Hz.
    rewrite app_nth2 in Hz by lia. rewrite app_nth1 in Hz by lia.
    now replace (n + j - length t)%nat with j in Hz by lia. }
  set (x := sol a0 rest 0 t).
  assert (Hxlen : length x = N) by (unfold x; rewrite sol_length; reflexivity).
  assert (Hx : forall k, (k < N)%nat -> zdot (nth k (dio_ds e) []) t = nth k x 0).
  { intros k Hk'. unfold x. rewrite <- Hval by assumption.
    rewrite zip_with_nth_row by lia. lia. }
  assert (Hlo : forall k, (k <= i)%nat -> (k < N)%nat -> nth k x 0 + nth k s 0 = 0).
  { intros k Hki HkN. specialize (Hk k Hki). rewrite Ev, El in Hk.
    rewrite (matrix_dot_lo N n) in Hk; try assumption; try reflexivity.
    rewrite Hx in Hk by assumption. lia. }
  assert (Hhi : forall k, (N + k <= i)%nat -> (k < N)%nat -> nth (N + k) s 0 = nth k x 0).
  { intros k Hki HkN. specialize (Hk (N + k)%nat Hki). rewrite Ev, El in Hk.
    rewrite (matrix_dot_hi N n) in Hk; try assumption; try reflexivity.
    rewrite Hx in Hk by assumption. unfold upper in Hk. destruct shape; lia. }
  assert (Hdot : zdot (a0 :: rest) x = 0).
  { unfold x. rewrite sol_dot by assumption. lia. }
  assert (Hx0 : forall k, nth k x 0 = 0).
  { destruct (Nat.ltb i n) eqn:Ein.
    - apply Nat.ltb_lt in Ein.
      apply (dot_single (a0 :: rest) x (S i)); try assumption.
      { cbn [length]. fold n. lia. }
      intros k Hki. destruct (Nat.ltb i k) eqn:Eik.
      + apply Nat.ltb_lt in Eik. unfold x. apply (sol_hess a0 rest t i); [|lia].
        intros j Hj. destruct (Nat.ltb j n) eqn:Ejn.
        * apply Nat.ltb_lt in Ejn. specialize (Hz j Hj). rewrite Ev, app_nth1 in Hz by lia. exact Hz.
        * apply Nat.ltb_ge in Ejn. apply nth_overflow. lia.
      + apply Nat.ltb_ge in Eik. specialize (Hlo k Eik ltac:(lia)).
        rewrite (Hst k) in Hlo by lia. lia.
    - apply Nat.ltb_ge in Ein.
      apply (dot_single (a0 :: rest) x (if Nat.eqb i (2 * N - 1) then 0 else i - n)%nat);
        try assumption.
      { cbn [length]. fold n. lia. }
      intros k Hki.
      destruct (Nat.ltb k N) eqn:EkN.
      2:{ apply Nat.ltb_ge in EkN. apply nth_overflow. lia. }
      apply Nat.ltb_lt in EkN.
      destruct (Nat.eqb i (2 * N - 1)) eqn:Ei.
      + apply Nat.eqb_eq in Ei. rewrite <- Hhi by lia. apply nth_overflow. lia.
      + apply Nat.eqb_neq in Ei.
        destruct (Nat.leb (N + k) i) eqn:E1.
        * apply Nat.leb_le in E1. rewrite <- Hhi by lia.
          destruct k as [|k].
          -- apply Hst; lia.
          -- apply nth_overflow. lia.
        * apply Nat.leb_gt in E1. specialize (Hlo k ltac:(lia) EkN).
          rewrite (Hst k) in Hlo by lia. lia. }
  assert (Ht0 : forall j, nth j t 0 = 0).
  { intros j. rewrite <- (par_sol a0 rest 0 t Hg Ht). fold x. now apply par_zero. }
  assert (Hs0 : forall j, nth j s 0 = 0).
  { intros j. destruct (Nat.ltb j (S N)) eqn:EjN.
    2:{ apply Nat.ltb_ge in EjN. apply nth_overflow. lia. }
    apply Nat.ltb_lt in EjN. destruct (Nat.ltb i (n + j)) eqn:Eij.
    - apply Nat.ltb_lt in Eij. now apply Hst.
    - apply Nat.ltb_ge in Eij. destruct (Nat.eq_dec j N) as [->|].
      + replace N with (N + 0)%nat by lia. rewrite Hhi by lia. apply Hx0.
      + specialize (Hlo j ltac:(lia) ltac:(lia)). rewrite Hx0 in Hlo. lia. }
  intros j. rewrite Ev.
  destruct (Nat.ltb j n) eqn:E1.
  { apply Nat.ltb_lt in E1. rewrite app_nth1 by lia. apply Ht0. }
  apply Nat.ltb_ge in E1. rewrite app_nth2 by lia.
  destruct (Nat.ltb (j - length t) (length s)) eqn:E2.
  { apply Nat.ltb_lt in E2. rewrite app_nth1 by lia. apply Hs0. }
  apply Nat.ltb_ge in E2. rewrite app_nth2 by lia. rewrite El.
  destruct (j - length t - length s)%nat as [|[|m]]; destruct shape; cbn; try reflexivity;
    destruct m; reflexivity.
Qed.

Lemma diag_0 R A : diag R 0 A.
Proof. split; intros; lia. Qed.

Lemma elim_matrix_ok a0 rest e shape :
  Forall (fun a => a <> 0) (a0 :: rest) -> rest <> [] ->
  init_dio_rec a0 rest = Ok (Some e) ->
  let N := S (length rest) in
  let A := dio_matrix N (length rest) (dio_z0 e) (dio_ds e) shape in
  exists A', elim_steps (seq 0 (2 * N)) A = Ok A'
    /\ wfm (2 * N) (ncols N shape) A' /\ diag (2 * N) (2 * N) A'
    /\ (forall v, (forall k, (k < 2 * N)%nat -> zdot (row A k) v = 0) ->
                  forall k, (k < 2 * N)%nat -> zdot (row A' k) v = 0).
Proof.
  intros Ha Hr He N A.
  assert (Ha0 : a0 <> 0) by (now inversion Ha).
  destruct (good_nonzero a0 rest Ha0) as [Hg Hgall].
  destruct (init_dio_rec_ok a0 rest Hr Hg) as (e' & He' & Hd & Hz0 & Hds & Hrows & Hval).
  rewrite He in He'. injection He' as <-.
  pose proof (elim_steps_ok (2 * N) (ncols N shape) A 0) as H.
  rewrite Nat.sub_0_r in H. apply H; try lia.
  - apply matrix_wf; auto.
  - unfold ncols. lia.
  - apply diag_0.
  - intros i Hi. apply (lead_triv_matrix a0 rest e shape); auto; lia.
Qed.
